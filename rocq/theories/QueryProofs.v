(** Lemmas about queries. *)
From Verif Require Import Base Chrono Types TypesProofs Query Memory MemSpec.

Section QueryInd.
  Variable P : query -> Prop.
  Hypothesis Hnot : forall q, P q -> P (QNot q).
  Hypothesis Hand : forall qs, Forall P qs -> P (QAnd qs).
  Hypothesis Hor : forall qs, Forall P qs -> P (QOr qs).
  Hypothesis Hatom : forall q,
    match q with QNot _ | QAnd _ | QOr _ => False | _ => True end -> P q.
  Fixpoint query_ind' (q : query) : P q :=
    let go := fix go (l : list query) : Forall P l :=
        match l with
        | [] => Forall_nil _
        | x :: l' => Forall_cons _ (query_ind' x) (go l')
        end in
    match q return P q with
    | QNot q' => Hnot q' (query_ind' q')
    | QAnd qs => Hand qs (go qs)
    | QOr qs => Hor qs (go qs)
    | q' => Hatom q' I
    end.
End QueryInd.

Lemma has_tag_in tags t : has_tag tags t = true <-> In t tags.
Proof.
  unfold has_tag. rewrite existsb_exists. split.
  - intros [x [Hx He]]. apply String.eqb_eq in He. subst. exact Hx.
  - intro H. exists t. split; [exact H | apply String.eqb_refl].
Qed.

Lemma bool_iff_neg (b : bool) P : (b = true <-> P) -> (b = false <-> ~ P).
Proof.
  intros [H1 H2]. destruct b; split; intro H.
  - discriminate.
  - exfalso. apply H, H1. reflexivity.
  - intro HP. discriminate (H2 HP).
  - reflexivity.
Qed.

Lemma query_matches_sat_unsat q j :
  (query_matches q j = true <-> sat q j) /\ (query_matches q j = false <-> unsat q j).
Proof.
  induction q as [q IH | qs IH | qs IH | q Hq] using query_ind'.
  - destruct IH as [IH1 IH2]. cbn. rewrite negb_true_iff, negb_false_iff. split; split.
    + intro H. constructor. apply IH2. exact H.
    + intro H. inversion H; subst. apply IH2. assumption.
    + intro H. constructor. apply IH1. exact H.
    + intro H. inversion H; subst. apply IH1. assumption.
  - cbn [query_matches]. rewrite Forall_forall in IH. split; split.
    + intro H. constructor. intros q Hq. rewrite forallb_forall in H.
      apply (IH q Hq). apply H. exact Hq.
    + intro H. inversion H; subst. apply forallb_forall. intros q Hq. apply (IH q Hq). auto.
    + intro H. assert (E : exists q, In q qs /\ query_matches q j = false).
      { clear IH. induction qs as [|x l IHl]; cbn in H; [discriminate|].
        destruct (query_matches x j) eqn:Ex.
        - cbn in H. destruct (IHl H) as [q [Hq He]]. exists q. split; [right|]; assumption.
        - exists x. split; [left; reflexivity | exact Ex]. }
      destruct E as [q [Hq He]]. apply unsat_and with q; [exact Hq|]. apply (IH q Hq). exact He.
    + intro H. inversion H as [|qs' q j' Hin Hu| | | | | | | | | | | |]; subst.
      destruct (forallb _ qs) eqn:E; [|reflexivity].
      rewrite forallb_forall in E. specialize (E q Hin).
      apply (IH q Hin) in Hu. congruence.
  - cbn [query_matches]. rewrite Forall_forall in IH. split; split.
    + intro H. apply existsb_exists in H. destruct H as [q [Hq He]].
      apply sat_or with q; [exact Hq|]. apply (IH q Hq). exact He.
    + intro H. inversion H as [| |qs' q j' Hin Hu| | | | | | | | | | |]; subst.
      apply existsb_exists. exists q. split; [exact Hin|]. apply (IH q Hin). exact Hu.
    + intro H. constructor. intros q Hq. apply (IH q Hq).
      destruct (query_matches q j) eqn:E; [|reflexivity].
      assert (Ht : existsb (fun q' => query_matches q' j) qs = true)
        by (apply existsb_exists; exists q; auto). congruence.
    + intro H. inversion H as [| |qs' j' Hall| | | | | | | | | | |]; subst.
      destruct (existsb _ qs) eqn:E; [|reflexivity].
      apply existsb_exists in E. destruct E as [q [Hq He]].
      pose proof (proj2 (proj2 (IH q Hq)) (Hall q Hq)). congruence.
  - assert (Hiff : forall P N : Prop, (query_matches q j = true <-> P) -> (N <-> ~ P) ->
        (sat q j <-> P) -> (unsat q j <-> N) ->
        (query_matches q j = true <-> sat q j) /\ (query_matches q j = false <-> unsat q j)).
    { intros P N H1 H2 H3 H4. rewrite H3, H4, H2. split; [exact H1|]. apply bool_iff_neg, H1. }
    destruct q as [| | | e | d | d | id | ids | s | ts | ts | t | t | t]; try contradiction; clear Hq.
    + apply Hiff with (P := j_executor j = e) (N := j_executor j <> e); cbn.
      * apply String.eqb_eq. * reflexivity.
      * split; [intro H; inversion H; auto | constructor; auto].
      * split; [intro H; inversion H; auto | constructor; auto].
    + apply Hiff with (P := j_data j = d) (N := j_data j <> d); cbn.
      * apply json_eqb_eq. * reflexivity.
      * split; [intro H; inversion H; auto | constructor; auto].
      * split; [intro H; inversion H; auto | constructor; auto].
    + apply Hiff with (P := j_metadata j = d) (N := j_metadata j <> d); cbn.
      * apply json_eqb_eq. * reflexivity.
      * split; [intro H; inversion H; auto | constructor; auto].
      * split; [intro H; inversion H; auto | constructor; auto].
    + apply Hiff with (P := j_id j = id) (N := j_id j <> id); cbn.
      * apply Z.eqb_eq. * reflexivity.
      * split; [intro H; inversion H; auto | constructor; auto].
      * split; [intro H; inversion H; auto | constructor; auto].
    + apply Hiff with (P := In (j_id j) ids) (N := ~ In (j_id j) ids); cbn.
      * rewrite existsb_exists. split.
        -- intros [x [Hx He]]. apply Z.eqb_eq in He. subst. exact Hx.
        -- intro H. exists (j_id j). split; [exact H | apply Z.eqb_refl].
      * reflexivity.
      * split; [intro H; inversion H; auto | constructor; auto].
      * split; [intro H; inversion H; auto | constructor; auto].
    + apply Hiff with (P := j_status j = s) (N := j_status j <> s); cbn.
      * apply status_eqb_eq. * reflexivity.
      * split; [intro H; inversion H; auto | constructor; auto].
      * split; [intro H; inversion H; auto | constructor; auto].
    + apply Hiff with (P := incl ts (j_tags j)) (N := ~ incl ts (j_tags j)); cbn.
      * rewrite forallb_forall. unfold incl. split; intros H x Hx; apply has_tag_in; auto.
      * reflexivity.
      * split; [intro H; inversion H; auto | constructor; auto].
      * split; [intro H; inversion H; auto | constructor; auto].
    + apply Hiff with (P := exists t, In t ts /\ In t (j_tags j))
                      (N := forall t, In t ts -> ~ In t (j_tags j)); cbn.
      * rewrite existsb_exists. split; intros [x [Hx He]]; exists x; split; try assumption;
          apply has_tag_in; assumption.
      * firstorder.
      * split; [intro H; inversion H; eauto | intros [t [H1 H2]]; econstructor; eauto].
      * split; [intro H; inversion H; auto | constructor; auto].
    + apply Hiff with (P := j_scheduled_at j < t) (N := t <= j_scheduled_at j); cbn.
      * apply Z.ltb_lt. * lia.
      * split; [intro H; inversion H; auto | constructor; auto].
      * split; [intro H; inversion H; auto | constructor; auto].
    + apply Hiff with (P := t < j_scheduled_at j) (N := j_scheduled_at j <= t); cbn.
      * apply Z.ltb_lt. * lia.
      * split; [intro H; inversion H; auto | constructor; auto].
      * split; [intro H; inversion H; auto | constructor; auto].
    + apply Hiff with (P := j_scheduled_at j = t) (N := j_scheduled_at j <> t); cbn.
      * apply Z.eqb_eq. * reflexivity.
      * split; [intro H; inversion H; auto | constructor; auto].
      * split; [intro H; inversion H; auto | constructor; auto].
Qed.

Lemma query_matches_sat q j : query_matches q j = true <-> sat q j.
Proof. apply query_matches_sat_unsat. Qed.

Lemma sat_xor_unsat q j : sat q j <-> ~ unsat q j.
Proof.
  destruct (query_matches_sat_unsat q j) as [H1 H2]. rewrite <- H1, <- H2.
  destruct (query_matches q j); split; congruence.
Qed.

Lemma for_executor_sat q e j : sat (for_executor q e) j <-> j_executor j = e /\ sat q j.
Proof.
  rewrite <- !query_matches_sat, <- String.eqb_eq.
  assert (Hd : query_matches (QAnd [QExecutorEqual e; q]) j
               = String.eqb (j_executor j) e && query_matches q j)
    by (cbn; rewrite andb_true_r; reflexivity).
  destruct q; try (cbn [for_executor]; rewrite Hd, andb_true_iff; reflexivity).
  cbn [for_executor query_matches]. rewrite forallb_app. cbn. rewrite andb_true_r, andb_true_iff.
  tauto.
Qed.

Lemma in_scope_spec ps j : prune_matches ps j = true <-> in_scope ps j.
Proof.
  unfold prune_matches, in_scope. rewrite andb_true_iff, status_eqb_eq.
  assert (H : spec_matches (ps_executors ps) j = true <->
     match ps_executors ps with
     | Except l => ~ In (j_executor j) l | Only l => In (j_executor j) l end).
  { destruct (ps_executors ps) as [l|l]; cbn.
    - rewrite forallb_forall. split.
      + intros H Hin. specialize (H _ Hin). rewrite String.eqb_refl in H. discriminate.
      + intros H x Hx. apply negb_true_iff, String.eqb_neq. congruence.
    - rewrite existsb_exists. split.
      + intros [x [Hx He]]. apply String.eqb_eq in He. subst. exact Hx.
      + intro H. exists (j_executor j). split; [exact H | apply String.eqb_refl]. }
  rewrite H. reflexivity.
Qed.
