(** The identifiers under which the Postgres backend serializes unique enqueues and stores their keys. *)
From Coq Require Import Ascii.
From Verif Require Import Base Types Samples FxHash.

(** * Vocabulary: fxhash, by bits and digits *)

Definition two64 : Z := 2 ^ 64.
(** Rotation of 64 bits to the left by five places. *)
Definition rotated (h r : Z) : Prop :=
  0 <= r < two64 /\ forall i, 0 <= i < 64 -> Z.testbit r i = Z.testbit h ((i - 5) mod 64).
(** [h'] is the state [h] after the word [w]. *)
Definition absorbs (h w h' : Z) : Prop :=
  0 <= h' < two64 /\ exists r n, rotated h r /\ Z.lxor r w * 0x517cc1b727220a95 = n * two64 + h'.
Inductive absorbs_all : Z -> list Z -> Z -> Prop :=
| aa_nil h : absorbs_all h [] h
| aa_cons h w h1 ws h2 : absorbs h w h1 -> absorbs_all h1 ws h2 -> absorbs_all h (w :: ws) h2.

(** The number with these digits to the base 256, lowest first. *)
Definition digits (l : list Z) (n : Z) : Prop :=
  0 <= n < 256 ^ Z.of_nat (length l) /\ forall i, (i < length l)%nat -> (n / 256 ^ Z.of_nat i) mod 256 = nth i l 0.
(** The words of a text: eight bytes at a time, then four if there are as many, then single ones. *)
Inductive text_words : list Z -> list Z -> Prop :=
| tw_eight l n rest ws : length l = 8%nat -> digits l n -> text_words rest ws -> text_words (l ++ rest) (n :: ws)
| tw_four l n rest : length l = 4%nat -> digits l n -> (length rest < 4)%nat -> text_words (l ++ rest) (n :: rest)
| tw_few l : (length l < 4)%nat -> text_words l l.
(** The bytes of a string. *)
Definition is_bytes (s : string) (l : list Z) : Prop :=
  length l = String.length s /\ forall i a, String.get i s = Some a -> nth_error l i = Some (Z.of_N (N_of_ascii a)).

(** The words of the criteria: the key, the executor's name and its end if it counts, the statuses. *)
Definition key_words (key : option Z) (ws : list Z) : Prop :=
  match key with
  | None => ws = [0]
  | Some k => exists w n, ws = [1; w] /\ 0 <= w < two64 /\ k = n * two64 + w
  end.
Definition executor_words (executor : option string) (ws : list Z) : Prop :=
  match executor with
  | None => ws = []
  | Some e => exists bytes tws, is_bytes e bytes /\ text_words bytes tws /\ ws = tws ++ [0xff]
  end.
Definition status_words (l : list status) (ws : list Z) : Prop :=
  exists ps, ws = Z.of_nat (length l) :: ps
    /\ Forall2 (fun s p => 0 <= p /\ nth_error [Complete; Executing; Scheduled; Retryable; Cancelled; Discarded] (Z.to_nat p) = Some s) l ps.

(** * Lemmas *)

Definition word (z : Z) : Prop := 0 <= z < two64.

Lemma two64_value : two64 = 18446744073709551616. Proof. reflexivity. Qed.
Lemma wrap_word z : word (wrap_u64 z).
Proof. unfold word, wrap_u64. rewrite two64_value. apply Z.mod_pos_bound. lia. Qed.
Lemma high_bits z i : word z -> 64 <= i -> Z.testbit z i = false.
Proof.
  intros [H1 H2] Hi. destruct (Z.eq_dec z 0) as [->|Hz]; [apply Z.testbit_0_l|].
  apply Z.bits_above_log2; [lia|]. apply Z.log2_lt_pow2; [lia|]. apply Z.lt_le_trans with two64; [exact H2|]. apply Z.pow_le_mono_r; lia.
Qed.

Lemma rotl5_word h : word h -> word (rotl5 h).
Proof.
  intro H. unfold word, rotl5. split.
  - apply Z.lor_nonneg. split; [apply wrap_word|]. apply Z.div_pos; [apply H|lia].
  - destruct (Z.eq_dec (Z.lor (wrap_u64 (h * 32)) (h / 576460752303423488)) 0) as [->|Hz]; [reflexivity|].
    assert (Hp : 0 <= Z.lor (wrap_u64 (h * 32)) (h / 576460752303423488)).
    { apply Z.lor_nonneg. split; [apply wrap_word|]. apply Z.div_pos; [apply H|lia]. }
    apply Z.log2_lt_cancel. change (Z.log2 two64) with 64. rewrite Z.log2_lor.
    + apply Z.max_lub_lt.
      * destruct (Z.eq_dec (wrap_u64 (h * 32)) 0) as [->|H0]; [reflexivity|]. pose proof (wrap_word (h * 32)) as [? ?]. apply Z.log2_lt_pow2; [lia|]. exact H2.
      * destruct (Z.eq_dec (h / 576460752303423488) 0) as [->|H0]; [reflexivity|].
        assert (0 <= h / 576460752303423488) by (apply Z.div_pos; [apply H|lia]).
        assert (h / 576460752303423488 < 32) by (apply Z.div_lt_upper_bound; [lia|]; destruct H as [_ H]; rewrite two64_value in H; lia).
        apply Z.log2_lt_pow2; lia.
    + apply wrap_word.
    + apply Z.div_pos; [apply H|lia].
Qed.
Lemma rotl5_bits h i : word h -> 0 <= i < 64 -> Z.testbit (rotl5 h) i = Z.testbit h ((i - 5) mod 64).
Proof.
  intros H Hi. unfold rotl5, wrap_u64. rewrite Z.lor_spec.
  change 18446744073709551616 with (2 ^ 64). rewrite Z.mod_pow2_bits_low by lia. change 32 with (2 ^ 5). rewrite <- Z.shiftl_mul_pow2 by lia.
  change 576460752303423488 with (2 ^ 59). rewrite <- Z.shiftr_div_pow2 by lia. rewrite Z.shiftr_spec by lia.
  destruct (Z_lt_ge_dec i 5) as [Hl|Hl].
  - rewrite Z.shiftl_spec_low by lia. cbn [orb]. f_equal. apply Z.mod_unique with (-1); lia.
  - rewrite Z.shiftl_spec by lia. rewrite (high_bits h (i + 59)) by (assumption || lia). rewrite orb_false_r. f_equal. rewrite Z.mod_small by lia. reflexivity.
Qed.
Lemma rotl5_rotated h : word h -> rotated h (rotl5 h).
Proof. intro H. split; [apply rotl5_word, H|]. intros i Hi. apply rotl5_bits; assumption. Qed.
Lemma rotated_inj h h' r : word h -> word h' -> rotated h r -> rotated h' r -> h = h'.
Proof.
  intros H H' [_ Hr] [_ Hr']. apply Z.bits_inj_iff'. intros n Hn.
  destruct (Z_lt_ge_dec n 64) as [Hl|Hl]; [|rewrite !high_bits by (assumption || lia); reflexivity].
  assert (Hi : 0 <= (n + 5) mod 64 < 64) by (apply Z.mod_pos_bound; lia).
  assert (E : ((n + 5) mod 64 - 5) mod 64 = n).
  { rewrite Zminus_mod_idemp_l. replace (n + 5 - 5) with n by lia. apply Z.mod_small. lia. }
  specialize (Hr _ Hi). specialize (Hr' _ Hi). rewrite E in Hr, Hr'. congruence.
Qed.

Lemma lxor_word a b : word a -> word b -> word (Z.lxor a b).
Proof.
  intros [Ha Ha'] [Hb Hb']. split; [apply Z.lxor_nonneg; tauto|].
  destruct (Z.eq_dec (Z.lxor a b) 0) as [->|Hz]; [reflexivity|].
  assert (0 <= Z.lxor a b) by (apply Z.lxor_nonneg; tauto).
  assert (Hb2 : forall z, 0 <= z < two64 -> Z.log2 z < 64).
  { intros z [H1 H2]. destruct (Z.eq_dec z 0) as [->|Hne]; [reflexivity|]. apply Z.log2_lt_pow2; [lia|exact H2]. }
  apply Z.log2_lt_cancel. change (Z.log2 two64) with 64. eapply Z.le_lt_trans; [apply Z.log2_lxor; assumption|].
  apply Z.max_lub_lt; apply Hb2; auto.
Qed.
Lemma times_seed_inj a b : word a -> word b -> wrap_u64 (a * 5871781006564002453) = wrap_u64 (b * 5871781006564002453) -> a = b.
Proof.
  intros [Ha Ha'] [Hb Hb'] H. unfold wrap_u64 in H. rewrite two64_value in *.
  assert (Hinv : forall z, 0 <= z < 18446744073709551616 ->
    ((z * 5871781006564002453) mod 18446744073709551616 * 2323857671730065597) mod 18446744073709551616 = z).
  { intros z Hz. rewrite Z.mul_mod_idemp_l by lia. rewrite <- Z.mul_assoc.
    replace (5871781006564002453 * 2323857671730065597) with (1 + 739706870995725965 * 18446744073709551616) by reflexivity.
    rewrite Z.mul_add_distr_l, Z.mul_1_r, Z.mul_assoc, Z_mod_plus_full. apply Z.mod_small, Hz. }
  rewrite <- (Hinv a) by lia. rewrite <- (Hinv b) by lia. rewrite H. reflexivity.
Qed.
Lemma lxor_cancel_l a b c : Z.lxor a b = Z.lxor a c -> b = c.
Proof.
  intro H. apply (f_equal (Z.lxor a)) in H. rewrite <- !Z.lxor_assoc, Z.lxor_nilpotent, !Z.lxor_0_l in H. exact H.
Qed.
Lemma hash_word_word h w : word (hash_word h w).
Proof. apply wrap_word. Qed.
Lemma hash_word_inj_word h w w' : word h -> word w -> word w' -> hash_word h w = hash_word h w' -> w = w'.
Proof.
  intros Hh Hw Hw' H. apply times_seed_inj in H; [|apply lxor_word; auto using rotl5_word|apply lxor_word; auto using rotl5_word].
  exact (lxor_cancel_l _ _ _ H).
Qed.
Lemma hash_word_inj_state h h' w : word h -> word h' -> word w -> hash_word h w = hash_word h' w -> h = h'.
Proof.
  intros Hh Hh' Hw H. apply times_seed_inj in H; [|apply lxor_word; auto using rotl5_word|apply lxor_word; auto using rotl5_word].
  rewrite (Z.lxor_comm (rotl5 h)), (Z.lxor_comm (rotl5 h')) in H. apply lxor_cancel_l in H.
  apply (rotated_inj h h' (rotl5 h)); auto; [apply rotl5_rotated, Hh|]. rewrite H. apply rotl5_rotated, Hh'.
Qed.
Lemma hash_word_absorbs h w : word h -> absorbs h w (hash_word h w).
Proof.
  intro H. split; [apply hash_word_word|]. exists (rotl5 h). eexists. split; [apply rotl5_rotated, H|].
  unfold hash_word, wrap_u64. rewrite two64_value. rewrite Z.mul_comm with (m := 18446744073709551616). apply Z.div_mod. lia.
Qed.

Lemma absorbs_all_app h ws h1 ws' h2 : absorbs_all h ws h1 -> absorbs_all h1 ws' h2 -> absorbs_all h (ws ++ ws') h2.
Proof. intro H. induction H as [|h w h1' ws h1 Ha H IH]; intro H2; [exact H2|]. cbn. econstructor; [exact Ha|auto]. Qed.
Lemma fold_absorbs ws : forall h, word h -> absorbs_all h ws (fold_left hash_word ws h) /\ word (fold_left hash_word ws h).
Proof.
  induction ws as [|w ws IH]; intros h H; cbn; [split; [constructor|exact H]|].
  destruct (IH (hash_word h w) (hash_word_word h w)) as [H1 H2]. split; [|exact H2]. econstructor; [apply hash_word_absorbs, H|exact H1].
Qed.
Lemma hash_tail_fold l : forall h, hash_tail h l = fold_left hash_word l h.
Proof. induction l as [|b l IH]; intro h; cbn; auto. Qed.

Definition byte (b : Z) : Prop := 0 <= b < 256.
Lemma little_endian_digits l : Forall byte l -> digits l (little_endian l).
Proof.
  induction 1 as [|b l Hb Hl [IH1 IH2]]; cbn [little_endian].
  - split; [cbn; lia|]. intros i Hi. inversion Hi.
  - assert (Hp : 256 ^ Z.of_nat (length (b :: l)) = 256 * 256 ^ Z.of_nat (length l)) by (cbn [length]; rewrite Nat2Z.inj_succ, Z.pow_succ_r by lia; reflexivity).
    unfold byte in Hb. split; [rewrite Hp; nia|]. intros [|i] Hi.
    + cbn [Z.of_nat nth]. change (256 ^ 0) with 1. rewrite Z.div_1_r. rewrite Z.mul_comm, Z_mod_plus_full. apply Z.mod_small, Hb.
    + cbn [nth]. cbn [length] in Hi. rewrite Nat2Z.inj_succ, Z.pow_succ_r by lia. rewrite <- Z.div_div by lia.
      replace ((b + 256 * little_endian l) / 256) with (little_endian l); [apply IH2; lia|].
      rewrite Z.mul_comm, Z.div_add by lia. rewrite Z.div_small by exact Hb. reflexivity.
Qed.
Lemma write64_words : forall n l, (length l <= n)%nat -> Forall byte l ->
  exists ws, text_words l ws /\ forall h, write64 h l = fold_left hash_word ws h.
Proof.
  induction n as [|n IH]; intros l Hn Hl.
  - destruct l; [|cbn in Hn; lia]. exists []. split; [apply tw_few; cbn; lia|reflexivity].
  - assert (Hcases : (length l < 4)%nat \/ (4 <= length l < 8)%nat \/ (8 <= length l)%nat) by lia.
    destruct Hcases as [Hc|[Hc|Hc]].
    + exists l. split; [apply tw_few, Hc|]. intro h. do 4 (destruct l as [|? l]; [reflexivity|]). cbn in Hc. lia.
    + do 4 (destruct l as [|? l]; [cbn in Hc; lia|]). exists (little_endian [z; z0; z1; z2] :: l). split.
      * change (z :: z0 :: z1 :: z2 :: l) with ([z; z0; z1; z2] ++ l). apply tw_four; [reflexivity| |cbn in Hc; lia].
        apply little_endian_digits. apply (Forall_app byte [z; z0; z1; z2] l), Hl.
      * intro h. cbn [fold_left]. rewrite <- hash_tail_fold. do 4 (destruct l as [|? l]; [reflexivity|]). cbn in Hc. lia.
    + do 8 (destruct l as [|? l]; [cbn in Hc; lia|]).
      assert (Hb8 : Forall byte [z; z0; z1; z2; z3; z4; z5; z6] /\ Forall byte l).
      { apply Forall_app. exact Hl. }
      destruct Hb8 as [Hb8 Hbl].
      destruct (IH l) as [ws [H1 H2]]; [cbn in Hn; lia|exact Hbl|].
      exists (little_endian [z; z0; z1; z2; z3; z4; z5; z6] :: ws). split.
      * change (z :: z0 :: z1 :: z2 :: z3 :: z4 :: z5 :: z6 :: l) with ([z; z0; z1; z2; z3; z4; z5; z6] ++ l).
        apply tw_eight; [reflexivity|apply little_endian_digits, Hb8|exact H1].
      * intro h. cbn [fold_left]. rewrite <- H2. reflexivity.
Qed.
Lemma bytes_of_spec s : is_bytes s (bytes_of s) /\ Forall byte (bytes_of s).
Proof.
  induction s as [|a s [[IH1 IH2] IH3]]; cbn [bytes_of].
  - split; [split; [reflexivity|]|constructor]. intros [|i] a H; discriminate.
  - split; [split; [cbn; congruence|]|].
    + intros [|i] b H; cbn in H.
      * injection H as <-. cbn. unfold nat_of_ascii. rewrite N_nat_Z. reflexivity.
      * cbn. apply IH2, H.
    + constructor; [|exact IH3]. unfold byte, nat_of_ascii. rewrite N_nat_Z. pose proof (N_ascii_bounded a). lia.
Qed.
Lemma fold_statuses l : forall h, fold_left (fun h s => hash_word h (status_index s)) l h = fold_left hash_word (map status_index l) h.
Proof. induction l as [|s l IH]; intro h; cbn; auto. Qed.

Lemma words_of key executor statuses : exists kw ew sw,
  key_words key kw /\ executor_words executor ew /\ status_words statuses sw
  /\ fx_identifier key executor statuses = as_i64 (fold_left hash_word (kw ++ ew ++ sw) 0).
Proof.
  assert (Hk : exists kw, key_words key kw /\ forall h, hash_option h key = fold_left hash_word kw h).
  { destruct key as [k|]; cbn [key_words hash_option].
    - exists [1; wrap_u64 k]. split; [|reflexivity]. exists (wrap_u64 k), (k / two64). split; [reflexivity|]. split; [apply wrap_word|].
      unfold wrap_u64. rewrite two64_value. rewrite Z.mul_comm. apply Z.div_mod. lia.
    - exists [0]. split; reflexivity. }
  assert (He : exists ew, executor_words executor ew /\ forall h, match executor with Some e => hash_str h e | None => h end = fold_left hash_word ew h).
  { destruct executor as [e|]; cbn [executor_words]; [|exists []; split; reflexivity].
    destruct (bytes_of_spec e) as [H1 H2]. destruct (write64_words _ (bytes_of e) (le_n _) H2) as [ws [H3 H4]].
    exists (ws ++ [0xff]). split; [eauto 6|]. intro h. unfold hash_str. rewrite fold_left_app, H4. reflexivity. }
  destruct Hk as [kw [Hk1 Hk2]]. destruct He as [ew [He1 He2]].
  exists kw, ew, (Z.of_nat (length statuses) :: map status_index statuses). split; [exact Hk1|]. split; [exact He1|]. split.
  - exists (map status_index statuses). split; [reflexivity|]. induction statuses as [|s l IH]; cbn; constructor; [destruct s; cbn; split; (lia || reflexivity)|exact IH].
  - unfold fx_identifier, hash_statuses. rewrite Hk2, He2, fold_statuses, !fold_left_app. reflexivity.
Qed.

(** The descriptions leave no choice. *)
Lemma digits_unique l : forall n n', digits l n -> digits l n' -> n = n'.
Proof.
  induction l as [|b l IH]; intros n n' [H1 H2] [H1' H2'].
  - cbn in H1, H1'. lia.
  - assert (Hp : 256 ^ Z.of_nat (length (b :: l)) = 256 * 256 ^ Z.of_nat (length l)) by (cbn [length]; rewrite Nat2Z.inj_succ, Z.pow_succ_r by lia; reflexivity).
    rewrite Hp in *.
    assert (Hd : forall m, 0 <= m < 256 * 256 ^ Z.of_nat (length l) ->
      (forall i, (i < length (b :: l))%nat -> (m / 256 ^ Z.of_nat i) mod 256 = nth i (b :: l) 0) -> digits l (m / 256) /\ m mod 256 = b).
    { intros m Hm Hi. split; [split|].
      - split; [apply Z.div_pos; lia|]. apply Z.div_lt_upper_bound; lia.
      - intros i Hl. specialize (Hi (S i)). cbn [nth length] in Hi. rewrite Nat2Z.inj_succ, Z.pow_succ_r, <- Z.div_div in Hi by lia. apply Hi. lia.
      - specialize (Hi O). cbn [nth Z.of_nat] in Hi. change (256 ^ 0) with 1 in Hi. rewrite Z.div_1_r in Hi. apply Hi. cbn. lia. }
    destruct (Hd n H1 H2) as [D1 D2], (Hd n' H1' H2') as [D1' D2']. specialize (IH _ _ D1 D1').
    rewrite (Z.div_mod n 256), (Z.div_mod n' 256) by lia. congruence.
Qed.
Lemma app_same_length {A} (a a' : list A) : forall b b', length a = length a' -> a ++ b = a' ++ b' -> a = a' /\ b = b'.
Proof.
  revert a'. induction a as [|x a IH]; intros [|x' a'] b b' Hl E; cbn in *; try discriminate; [auto|].
  injection E as -> E. destruct (IH a' b b' ltac:(lia) E) as [-> ->]. auto.
Qed.
Lemma text_words_unique l ws : text_words l ws -> forall ws', text_words l ws' -> ws = ws'.
Proof.
  induction 1 as [l n rest ws Hl Hd H IH|l n rest Hl Hd Hr|l Hl]; intros ws' H';
    inversion H' as [l' n' rest' ws2 Hl' Hd' H2 E E2|l' n' rest' Hl' Hd' Hr' E E2|l' Hl' E E2]; subst;
    try (apply (f_equal (@length Z)) in E; rewrite !app_length in E; lia); try (rewrite app_length in *; lia); try reflexivity.
  - destruct (app_same_length l' l rest' rest ltac:(congruence) E) as [-> ->]. f_equal; [|apply IH, H2]. eapply digits_unique; eassumption.
  - destruct (app_same_length l' l rest' rest ltac:(congruence) E) as [-> ->]. f_equal. eapply digits_unique; eassumption.
Qed.
Lemma is_bytes_unique s l l' : is_bytes s l -> is_bytes s l' -> l = l'.
Proof.
  revert l l'. induction s as [|a s IH]; intros [|x l] [|x' l'] [H1 H2] [H1' H2']; cbn in *; try discriminate; [reflexivity|].
  pose proof (H2 O a eq_refl) as E. pose proof (H2' O a eq_refl) as E'. cbn in E, E'. f_equal; [congruence|].
  apply IH; (split; [lia|]); intros i b Hb; [apply (H2 (S i) b Hb)|apply (H2' (S i) b Hb)].
Qed.
Lemma absorbs_unique h w a b : absorbs h w a -> absorbs h w b -> a = b.
Proof.
  intros [Ha [r [n [[Hr1 Hr2] H]]]] [Hb [r' [n' [[Hr1' Hr2'] H']]]].
  assert (r' = r) as ->.
  { apply Z.bits_inj_iff'. intros i Hi. destruct (Z_lt_ge_dec i 64) as [Hl|Hl]; [rewrite Hr2, Hr2' by lia; reflexivity|].
    rewrite !high_bits by (assumption || lia). reflexivity. }
  rewrite H in H'. rewrite two64_value in *. lia.
Qed.
Lemma absorbs_all_unique h ws a b : absorbs_all h ws a -> absorbs_all h ws b -> a = b.
Proof.
  intro H. revert b. induction H as [|h w h1 ws h2 Ha H IH]; intros b Hb; inversion Hb as [|? ? h1' ? ? Ha' Hb']; subst; [reflexivity|].
  rewrite (absorbs_unique _ _ _ _ Ha' Ha) in Hb'. exact (IH _ Hb').
Qed.
Lemma text_words_word l ws : text_words l ws -> Forall byte l -> Forall word ws.
Proof.
  assert (Hb : forall l, Forall byte l -> Forall word l).
  { intros l' H. eapply Forall_impl; [|exact H]. unfold byte, word. rewrite two64_value. intros; lia. }
  assert (Hd : forall l n, (length l <= 8)%nat -> digits l n -> word n).
  { intros l' n Hl [[H1 H2] _]. split; [exact H1|]. eapply Z.lt_le_trans; [exact H2|]. change two64 with (256 ^ 8). apply Z.pow_le_mono_r; lia. }
  induction 1 as [l n rest ws Hl Hdg H IH|l n rest Hl Hdg Hr|l Hl]; intro H0; [| |auto]; apply Forall_app in H0; destruct H0 as [_ H0];
    (constructor; [eapply Hd; [|exact Hdg]; lia|auto]).
Qed.

(** * C77 Identifiers *)

(** The identifier is the fxhash of the words of the criteria, read as a signed number of 64 bits. *)
Theorem C77_identifier : forall key executor statuses, exists kw ew sw h n,
  key_words key kw /\ executor_words executor ew /\ status_words statuses sw /\ absorbs_all 0 (kw ++ ew ++ sw) h
  /\ - 2 ^ 63 <= fx_identifier key executor statuses < 2 ^ 63 /\ h = n * two64 + fx_identifier key executor statuses.
Proof.
  intros key executor statuses. destruct (words_of key executor statuses) as [kw [ew [sw [H1 [H2 [H3 ->]]]]]].
  exists kw, ew, sw, (fold_left hash_word (kw ++ ew ++ sw) 0).
  destruct (fold_absorbs (kw ++ ew ++ sw) 0) as [H4 H5]; [unfold word, two64; lia|].
  set (h := fold_left hash_word (kw ++ ew ++ sw) 0) in *. unfold word in H5. rewrite two64_value in *. unfold as_i64.
  change (2 ^ 63) with 9223372036854775808.
  destruct (Z.ltb_spec h 9223372036854775808); [exists 0|exists 1]; (split; [exact H1|]); (split; [exact H2|]); (split; [exact H3|]);
    (split; [exact H4|]); lia.
Qed.
Print Assumptions C77_identifier.

(** The identifier is determined by that: the words and every step are. *)
Theorem C77_determined : forall key executor statuses kw kw' ew ew' sw sw' h h',
  key_words key kw -> key_words key kw' -> executor_words executor ew -> executor_words executor ew' ->
  status_words statuses sw -> status_words statuses sw' ->
  absorbs_all 0 (kw ++ ew ++ sw) h -> absorbs_all 0 (kw' ++ ew' ++ sw') h' -> h = h'.
Proof.
  intros key executor statuses kw kw' ew ew' sw sw' h h' K K' E E' S S' H H'.
  assert (kw' = kw) as ->.
  { destruct key as [k|]; cbn [key_words] in K, K'; [|congruence]. destruct K as [w [n [-> [Hw Hn]]]], K' as [w' [n' [-> [Hw' Hn']]]].
    rewrite two64_value in *. assert (w' = w) as -> by lia. reflexivity. }
  assert (ew' = ew) as ->.
  { destruct executor as [e|]; cbn in E, E'; [|congruence]. destruct E as [b [t [Hb [Ht ->]]]], E' as [b' [t' [Hb' [Ht' ->]]]].
    rewrite (is_bytes_unique e b b' Hb Hb') in Ht. rewrite (text_words_unique _ _ Ht _ Ht'). reflexivity. }
  assert (sw' = sw) as ->.
  { destruct S as [ps [-> S]], S' as [ps' [-> S']]. f_equal. clear -S S'. revert ps' S'.
    induction S as [|s p l ps Hp S IH]; intros ps' S'; inversion S' as [|s0 p' l0 ps0 Hp' S0]; subst; [reflexivity|].
    f_equal; [|apply IH, S0]. destruct Hp as [P1 P2], Hp' as [P1' P2'].
    assert (Hnd : NoDup [Complete; Executing; Scheduled; Retryable; Cancelled; Discarded]) by (repeat constructor; cbn; intuition discriminate).
    assert (En : Z.to_nat p' = Z.to_nat p); [|lia].
    apply (proj1 (NoDup_nth_error _) Hnd); [apply nth_error_Some; congruence|congruence]. }
  exact (absorbs_all_unique _ _ _ _ H H').
Qed.
Print Assumptions C77_determined.

(** Different keys, the rest of the criteria being equal, have different identifiers. *)
Theorem C77_keys_differ_partial : forall k k' executor statuses,
  - 2 ^ 63 <= k < 2 ^ 63 -> - 2 ^ 63 <= k' < 2 ^ 63 -> k <> k' -> Z.of_nat (length statuses) < 2 ^ 64 ->
  fx_identifier (Some k) executor statuses <> fx_identifier (Some k') executor statuses.
Proof.
  intros k k' executor statuses Hk Hk' Hne Hlen H. apply Hne. change (2 ^ 63) with 9223372036854775808 in *. change (2 ^ 64) with two64 in *.
  unfold fx_identifier in H.
  assert (Hi : forall a b, word a -> word b -> as_i64 a = as_i64 b -> a = b).
  { intros a b Ha Hb. unfold word in *. rewrite two64_value in *. unfold as_i64.
    destruct (Z.ltb_spec a 9223372036854775808), (Z.ltb_spec b 9223372036854775808); lia. }
  assert (Hf : forall ws a b, word a -> word b -> Forall word ws -> fold_left hash_word ws a = fold_left hash_word ws b -> a = b).
  { induction ws as [|w ws IH]; intros a b Ha Hb Hws E; cbn in E; [exact E|]. inversion Hws; subst.
    apply IH in E; [|apply hash_word_word|apply hash_word_word|assumption]. apply hash_word_inj_state in E; assumption. }
  assert (Hw : forall h, word (hash_statuses h statuses)).
  { intro h. unfold hash_statuses. rewrite fold_statuses. apply fold_absorbs, hash_word_word. }
  assert (Hs : forall a b, word a -> word b -> hash_statuses a statuses = hash_statuses b statuses -> a = b).
  { intros a b Ha Hb E. unfold hash_statuses in E. rewrite !fold_statuses in E. apply Hf in E.
    - apply hash_word_inj_state in E; [exact E|exact Ha|exact Hb|split; [lia|exact Hlen]].
    - apply hash_word_word.
    - apply hash_word_word.
    - apply Forall_map, Forall_forall. intros s _. unfold word. rewrite two64_value. destruct s; cbn; lia. }
  assert (He : forall a b, word a -> word b ->
    match executor with Some e => hash_str a e | None => a end = match executor with Some e => hash_str b e | None => b end -> a = b).
  { intros a b Ha Hb E. destruct executor as [e|]; [|exact E]. destruct (bytes_of_spec e) as [_ H2].
    destruct (write64_words _ (bytes_of e) (le_n _) H2) as [ws [H3 H4]]. unfold hash_str in E. rewrite !H4 in E.
    apply hash_word_inj_state in E.
    - apply Hf in E; [exact E|exact Ha|exact Hb|exact (text_words_word _ _ H3 H2)].
    - apply fold_absorbs, Ha.
    - apply fold_absorbs, Hb.
    - unfold word. rewrite two64_value. lia. }
  apply Hi in H; [|apply Hw|apply Hw]. cbn [hash_option] in H.
  assert (Hx : forall a, word a -> word match executor with Some e => hash_str a e | None => a end) by (intros a Ha; destruct executor; [apply hash_word_word|exact Ha]).
  apply Hs in H; [|apply Hx, hash_word_word|apply Hx, hash_word_word]. apply He in H; [|apply hash_word_word|apply hash_word_word].
  apply hash_word_inj_word in H; [|apply hash_word_word|apply wrap_word|apply wrap_word].
  unfold wrap_u64 in H. pose proof (Z.div_mod k 18446744073709551616). pose proof (Z.div_mod k' 18446744073709551616).
  assert (k / 18446744073709551616 = k' / 18446744073709551616 \/ Z.abs (k / 18446744073709551616 - k' / 18446744073709551616) >= 1) by lia.
  lia.
Qed.
Print Assumptions C77_keys_differ_partial.

(** Not all different criteria do: this key counts as much as none. *)
Theorem C77_criteria_differ_refuted : exists k, - 2 ^ 63 <= k < 2 ^ 63 /\
  forall executor statuses, fx_identifier (Some k) executor statuses = fx_identifier None executor statuses.
Proof.
  exists 3429551472952562346. split; [split; [discriminate|reflexivity]|]. intros executor statuses. unfold fx_identifier.
  assert (E : hash_option 0 (Some 3429551472952562346) = hash_option 0 None) by (vm_compute; reflexivity). rewrite E. reflexivity.
Qed.
Print Assumptions C77_criteria_differ_refuted.

Example C77_sample :
  absorbs_all 0 [1; 7; 2; 2; 0] (18446744073709551616 + fx_identifier (Some 7) None [Scheduled; Complete])
  \/ absorbs_all 0 [1; 7; 2; 2; 0] (fx_identifier (Some 7) None [Scheduled; Complete]).
Proof.
  destruct (fold_absorbs [1; 7; 2; 2; 0] 0) as [H _]; [unfold word, two64; lia|].
  first [left; exact H | right; exact H].
Qed.
Example C77_text_sample : exists n n', text_words (bytes_of "rexecutor mail") [n; n'; 105; 108].
Proof.
  exists (little_endian (bytes_of "rexecuto")), (little_endian (bytes_of "r ma")).
  apply (tw_eight (bytes_of "rexecuto") _ (bytes_of "r mail")); [reflexivity|apply little_endian_digits, bytes_of_spec|].
  apply (tw_four (bytes_of "r ma") _ (bytes_of "il")); [reflexivity|apply little_endian_digits, bytes_of_spec|cbn; lia].
Qed.
