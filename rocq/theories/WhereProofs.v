(** Lemmas about user-level queries. *)
From Verif Require Import Base Chrono Types TypesProofs Query Memory MemSpec QueryProofs WhereSpec.

Section WhereInd.
  Context {D M : Type}.
  Variable P : where_ D M -> Prop.
  Hypothesis Hnot : forall q, P q -> P (WNot q).
  Hypothesis Hand : forall qs, Forall P qs -> P (WAnd qs).
  Hypothesis Hor : forall qs, Forall P qs -> P (WOr qs).
  Hypothesis Hatom : forall q,
    match q with WNot _ | WAnd _ | WOr _ => False | _ => True end -> P q.
  Fixpoint where_ind' (q : where_ D M) : P q :=
    let go := fix go (l : list (where_ D M)) : Forall P l :=
        match l with
        | [] => Forall_nil _
        | x :: l' => Forall_cons _ (where_ind' x) (go l')
        end in
    match q return P q with
    | WNot q' => Hnot q' (where_ind' q')
    | WAnd qs => Hand qs (go qs)
    | WOr qs => Hor qs (go qs)
    | q' => Hatom q' I
    end.
End WhereInd.

Section Proofs.
  Context {D M : Type}.
  Variable enc_data : D -> option json.
  Variable enc_metadata : M -> option json.
  Notation wsat := (wsat enc_data enc_metadata).
  Notation wencodable := (wencodable enc_data enc_metadata).
  Notation tr := (query_of_where enc_data enc_metadata).

  Lemma wsat_and_forall qs j : wsat (WAnd qs) j <-> Forall (fun q => wsat q j) qs.
  Proof.
    induction qs as [|q qs IH]; cbn.
    - split; auto.
    - cbn in IH. rewrite IH. split.
      + intros [H1 H2]. constructor; assumption.
      + intro H. inversion H. auto.
  Qed.
  Lemma wsat_or_exists qs j : wsat (WOr qs) j <-> Exists (fun q => wsat q j) qs.
  Proof.
    induction qs as [|q qs IH]; cbn.
    - split; [tauto | intro H; inversion H].
    - cbn in IH. rewrite IH. split.
      + intros [H|H]; [left | right]; assumption.
      + intro H. inversion H; auto.
  Qed.
  Lemma wenc_and qs : wencodable (WAnd qs) <-> Forall wencodable qs.
  Proof.
    induction qs as [|q qs IH]; cbn.
    - split; auto.
    - cbn in IH. rewrite IH. split.
      + intros [H1 H2]. constructor; assumption.
      + intro H. inversion H. auto.
  Qed.
  Lemma wenc_or qs : wencodable (WOr qs) <-> Forall wencodable qs.
  Proof. exact (wenc_and qs). Qed.

  Lemma sat_and_forall qs j : sat (QAnd qs) j <-> Forall (fun q => sat q j) qs.
  Proof.
    rewrite Forall_forall. split; intro H.
    - inversion H. assumption.
    - constructor. exact H.
  Qed.
  Lemma sat_or_exists qs j : sat (QOr qs) j <-> Exists (fun q => sat q j) qs.
  Proof.
    rewrite Exists_exists. split; intro H.
    - inversion H. eauto.
    - destruct H as [q [H1 H2]]. econstructor; eassumption.
  Qed.

  Lemma collect_some {A B} (f : A -> option B) l r :
    collect (map f l) = Some r -> Forall2 (fun a b => f a = Some b) l r.
  Proof.
    revert r. induction l as [|a l IH]; cbn; intros r H.
    - injection H as <-. constructor.
    - destruct (f a) as [b|] eqn:E; [|discriminate].
      destruct (collect (map f l)) as [r'|]; [|discriminate]. injection H as <-.
      constructor; auto.
  Qed.
  Lemma collect_none {A B} (f : A -> option B) l :
    collect (map f l) = None <-> Exists (fun a => f a = None) l.
  Proof.
    induction l as [|a l IH]; cbn.
    - split; [discriminate | intro H; inversion H].
    - destruct (f a) as [b|] eqn:E.
      + destruct (collect (map f l)) as [r|].
        * split; [discriminate|]. intro H. inversion H; subst; [congruence|].
          apply IH in H1. discriminate.
        * split; [|reflexivity]. intros _. right. apply IH. reflexivity.
      + split; [|reflexivity]. intros _. left. exact E.
  Qed.

  Lemma translate_meaning w : forall q j, tr w = Some q -> (sat q j <-> wsat w j).
  Proof.
    induction w as [w IH|qs IH|qs IH|w Ha] using where_ind'; intros q j H.
    - cbn in H. destruct (tr w) as [q'|] eqn:E; [|discriminate]. injection H as <-.
      cbn. rewrite <- (IH q' j eq_refl). split.
      + intro H. inversion H as [? ? Hu| | | | | | | | | | | | |]; subst.
        intro Hs. apply sat_xor_unsat in Hs. contradiction.
      + intro H. constructor. pose proof (query_matches_sat_unsat q' j) as [Hx Hy].
        apply Hy. destruct (query_matches q' j) eqn:Em; [|reflexivity].
        exfalso. apply H. apply Hx. reflexivity.
    - cbn in H. destruct (collect _) as [r|] eqn:E; [|discriminate]. injection H as <-.
      apply collect_some in E. rewrite wsat_and_forall, sat_and_forall.
      induction E as [|a b l r Hab E IHE]; [split; constructor|].
      inversion IH as [|? ? Hq HQ]; subst. specialize (IHE HQ). specialize (Hq b j Hab).
      split; intro H; inversion H; subst; constructor; tauto.
    - cbn in H. destruct (collect _) as [r|] eqn:E; [|discriminate]. injection H as <-.
      apply collect_some in E. rewrite wsat_or_exists, sat_or_exists.
      induction E as [|a b l r Hab E IHE]; [split; intro H; inversion H|].
      inversion IH as [|? ? Hq HQ]; subst. specialize (IHE HQ). specialize (Hq b j Hab).
      split; intro H; inversion H; subst; (left; tauto) || (right; tauto).
    - destruct w; try contradiction; cbn in H; cbn.
      + destruct (enc_data d) as [v|] eqn:E; [|discriminate]. injection H as <-.
        split; [intro H; inversion H; congruence | intro H; constructor; congruence].
      + destruct (enc_metadata m) as [v|] eqn:E; [|discriminate]. injection H as <-.
        split; [intro H; inversion H; congruence | intro H; constructor; congruence].
      + injection H as <-. split; [intro H; inversion H; congruence | intro H; constructor; congruence].
      + injection H as <-. split; [intro H; inversion H; assumption | intro H; constructor; assumption].
      + injection H as <-. split; [intro H; inversion H; congruence | intro H; constructor; congruence].
      + injection H as <-. split; [intro H; inversion H; assumption | intro H; constructor; assumption].
      + injection H as <-. split; [intro H; inversion H; subst; eauto | intros [t [H1 H2]]; econstructor; eassumption].
      + injection H as <-. split; [intro H; inversion H; lia | intro H; constructor; lia].
      + injection H as <-. split; [intro H; inversion H; lia | intro H; constructor; lia].
      + injection H as <-. split; [intro H; inversion H; congruence | intro H; constructor; congruence].
  Qed.

  Lemma translate_defined w : tr w <> None <-> wencodable w.
  Proof.
    induction w as [w IH|qs IH|qs IH|w Ha] using where_ind'.
    - cbn. rewrite <- IH. destruct (tr w); cbn; split; congruence.
    - rewrite wenc_and. cbn [query_of_where].
      destruct (collect (map tr qs)) as [r|] eqn:E; cbn.
      + split; [|discriminate]. intros _. apply collect_some in E.
        induction E as [|a b l r Hab E IHE]; [constructor|]. inversion IH; subst.
        constructor; [apply H1; congruence | auto].
      + apply collect_none in E. split; [congruence|]. intros H _.
        clear -IH E H. induction E as [a l Ha|a l E IHE]; inversion IH; inversion H; subst; [|auto].
        apply H2 in H6. congruence.
    - rewrite wenc_or. cbn [query_of_where].
      destruct (collect (map tr qs)) as [r|] eqn:E; cbn.
      + split; [|discriminate]. intros _. apply collect_some in E.
        induction E as [|a b l r Hab E IHE]; [constructor|]. inversion IH; subst.
        constructor; [apply H1; congruence | auto].
      + apply collect_none in E. split; [congruence|]. intros H _.
        clear -IH E H. induction E as [a l Ha|a l E IHE]; inversion IH; inversion H; subst; [|auto].
        apply H2 in H6. congruence.
    - destruct w; try contradiction; cbn; try (split; [auto | discriminate]).
      + destruct (enc_data d); cbn; split; congruence.
      + destruct (enc_metadata m); cbn; split; congruence.
  Qed.

  Lemma wsat_where_and a b j : wsat (where_and a b) j <-> wsat a j /\ wsat b j.
  Proof.
    destruct a as [q|qs|qs| | | | | | | | | |]; cbn [where_and];
      try (cbn; tauto).
    rewrite !wsat_and_forall, Forall_app. split.
    - intros [H1 H2]. inversion H2. auto.
    - intros [H1 H2]. auto.
  Qed.
  Lemma wsat_where_or a b j : wsat (where_or a b) j <-> wsat a j \/ wsat b j.
  Proof.
    destruct a as [q|qs|qs| | | | | | | | | |]; cbn [where_or];
      try (cbn; tauto).
    rewrite !wsat_or_exists, Exists_app. split.
    - intros [H1|H2]; [auto|]. inversion H2; [auto|]. inversion H0.
    - intros [H1|H2]; auto.
  Qed.
End Proofs.
