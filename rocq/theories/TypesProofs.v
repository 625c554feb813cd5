(** Decidability lemmas for the data types. *)
From Verif Require Import Base Chrono Types.

Lemma status_eqb_eq a b : status_eqb a b = true <-> a = b.
Proof. destruct a, b; cbn; split; congruence. Qed.

Lemma status_eqb_refl a : status_eqb a a = true.
Proof. destruct a; reflexivity. Qed.

Lemma status_eqb_neq a b : status_eqb a b = false <-> a <> b.
Proof. destruct a, b; cbn; split; congruence. Qed.

Definition status_eq_dec (a b : status) : {a = b} + {a <> b}.
Proof. decide equality. Defined.

Lemma status_mem_in s l : status_mem s l = true <-> In s l.
Proof.
  unfold status_mem. rewrite existsb_exists. split.
  - intros [x [Hx He]]. apply status_eqb_eq in He. subst. exact Hx.
  - intro H. exists s. split; [exact H | apply status_eqb_refl].
Qed.

Lemma status_mem_not_in s l : status_mem s l = false <-> ~ In s l.
Proof.
  rewrite <- status_mem_in. destruct (status_mem s l); split; congruence.
Qed.

Section JsonInd.
  Variable P : json -> Prop.
  Hypothesis Hnull : P JNull.
  Hypothesis Hbool : forall b, P (JBool b).
  Hypothesis Hnum : forall n, P (JNum n).
  Hypothesis Hstr : forall s, P (JStr s).
  Hypothesis Harr : forall l, Forall P l -> P (JArr l).
  Hypothesis Hobj : forall l, Forall (fun kv => P (snd kv)) l -> P (JObj l).
  Fixpoint json_ind' (j : json) : P j :=
    match j with
    | JNull => Hnull
    | JBool b => Hbool b
    | JNum n => Hnum n
    | JStr s => Hstr s
    | JArr l => Harr l
        ((fix go (l : list json) : Forall P l :=
            match l with
            | [] => Forall_nil _
            | x :: l' => Forall_cons _ (json_ind' x) (go l')
            end) l)
    | JObj l => Hobj l
        ((fix go (l : list (string * json)) : Forall (fun kv => P (snd kv)) l :=
            match l with
            | [] => Forall_nil _
            | (k, x) :: l' => Forall_cons (k, x) (json_ind' x) (go l')
            end) l)
    end.
End JsonInd.

Lemma json_eqb_eq a b : json_eqb a b = true <-> a = b.
Proof.
  revert b. induction a as [| x | x | x | l IH | l IH] using json_ind';
    intros [| y | y | y | l' | l']; cbn; try (split; congruence).
  - rewrite Bool.eqb_true_iff. split; congruence.
  - rewrite Z.eqb_eq. split; congruence.
  - rewrite String.eqb_eq. split; congruence.
  - revert l'. induction IH as [| x l Hx Hl IHl]; intros [| y l']; cbn; try (split; congruence).
    rewrite andb_true_iff, Hx, IHl. split.
    + intros [-> H]. congruence.
    + intro H. injection H as -> ->. split; reflexivity.
  - revert l'. induction IH as [| [k x] l Hx Hl IHl]; intros [| [k' y] l']; cbn;
      try (split; congruence).
    cbn in Hx. rewrite !andb_true_iff, Hx, IHl, String.eqb_eq. split.
    + intros [[-> ->] H]. congruence.
    + intro H. injection H as -> -> ->. repeat split; reflexivity.
Qed.

Lemma json_eqb_refl a : json_eqb a a = true.
Proof. apply json_eqb_eq. reflexivity. Qed.

Lemma in_i32_spec z : in_i32 z = true <-> -2147483648 <= z <= 2147483647.
Proof. unfold in_i32. lia. Qed.

Lemma in_u16_spec z : in_u16 z = true <-> 0 <= z <= 65535.
Proof. unfold in_u16. lia. Qed.

Lemma i32_arith_ok p z : -2147483648 <= z <= 2147483647 -> i32_arith p z = Some z.
Proof. intro H. unfold i32_arith. apply in_i32_spec in H. rewrite H. reflexivity. Qed.

Lemma i32_arith_none p z :
  i32_arith p z = None -> p = Debug /\ ~ (-2147483648 <= z <= 2147483647).
Proof.
  unfold i32_arith. destruct (in_i32 z) eqn:E; [discriminate|].
  destruct p; [|discriminate]. intros _. split; [reflexivity|].
  intro H. apply in_i32_spec in H. congruence.
Qed.

Lemma wrap_i32_id z : -2147483648 <= z <= 2147483647 -> wrap_i32 z = z.
Proof. intro H. unfold wrap_i32. rewrite Z.mod_small; lia. Qed.

Lemma wrap_i32_range z : -2147483648 <= wrap_i32 z <= 2147483647.
Proof.
  unfold wrap_i32. pose proof (Z.mod_pos_bound (z + 2147483648) 4294967296). lia.
Qed.

Lemma wrap_i32_add z : wrap_i32 (wrap_i32 z + 1) = wrap_i32 (z + 1).
Proof.
  unfold wrap_i32.
  replace ((z + 2147483648) mod 4294967296 - 2147483648 + 1 + 2147483648)
    with ((z + 2147483648) mod 4294967296 + 1) by lia.
  rewrite Zplus_mod_idemp_l. f_equal. f_equal. lia.
Qed.

Lemma wrap_i32_inj a b :
  0 <= a < 4294967296 -> 0 <= b < 4294967296 -> wrap_i32 a = wrap_i32 b -> a = b.
Proof.
  unfold wrap_i32. intros Ha Hb H.
  assert (E : (a + 2147483648) mod 4294967296 = (b + 2147483648) mod 4294967296) by lia.
  pose proof (Z.div_mod (a + 2147483648) 4294967296 ltac:(lia)).
  pose proof (Z.div_mod (b + 2147483648) 4294967296 ltac:(lia)).
  nia.
Qed.
