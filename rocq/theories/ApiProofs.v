(** Lemmas behind the theorems about builders, typed jobs, the global backend and assertions. *)
From Verif Require Import Base Chrono Types TypesProofs Query Memory MemSpec QueryProofs MemProofs
  MemHist MemHist2 MemThms MemInv Codec Builder GlobalBackend Testing WhereSpec WhereProofs ApiSpec.

(** * Last calls *)

Lemma last_set_nil {C A} (f : C -> option A) d : last_set f [] d d.
Proof. right. split; [intros x [] | reflexivity]. Qed.

Lemma last_set_snoc_some {C A} (f : C -> option A) cs c d v :
  f c = Some v -> last_set f (cs ++ [c]) d v.
Proof. intro H. left. exists cs, c, []. repeat split; auto. intros x []. Qed.

Lemma last_set_snoc_none {C A} (f : C -> option A) cs c d v :
  f c = None -> last_set f cs d v -> last_set f (cs ++ [c]) d v.
Proof.
  intros H [[b [x [a [-> [H1 H2]]]]]|[H1 ->]].
  - left. exists b, x, (a ++ [c]). rewrite <- app_assoc. repeat split; auto.
    intros y Hy. apply in_app_or in Hy. destruct Hy as [Hy|[<-|[]]]; auto.
  - right. split; [|reflexivity]. intros y Hy. apply in_app_or in Hy. destruct Hy as [Hy|[<-|[]]]; auto.
Qed.

Lemma last_set_map {C A B} (g : A -> B) (f : C -> option A) cs d v :
  last_set f cs d v -> last_set (fun c => option_map g (f c)) cs (g d) (g v).
Proof.
  intros [[b [x [a [-> [H1 H2]]]]]|[H1 ->]].
  - left. exists b, x, a. rewrite H1. repeat split; auto. intros y Hy. rewrite (H2 y Hy). reflexivity.
  - right. split; [|reflexivity]. intros y Hy. rewrite (H1 y Hy). reflexivity.
Qed.

Lemma last_set_unique {C A} (f : C -> option A) cs d v w :
  last_set f cs d v -> last_set f cs d w -> v = w.
Proof.
  intros Hv Hw.
  destruct Hv as [[b1 [x1 [a1 [E1 [F1 G1]]]]]|[F1 ->]]; destruct Hw as [[b2 [x2 [a2 [E2 [F2 G2]]]]]|[F2 ->]].
  - rewrite E1 in E2. clear E1. revert b2 E2. induction b1 as [|y b1 IH]; intros [|z b2] E2; cbn in E2.
    + injection E2 as <- _. congruence.
    + injection E2 as _ ->. rewrite (G1 x2) in F2; [discriminate|]. apply in_or_app. right. left. reflexivity.
    + injection E2 as _ <-. rewrite (G2 x1) in F1; [discriminate|]. apply in_or_app. right. left. reflexivity.
    + injection E2 as _ E2. exact (IH _ E2).
  - rewrite (F2 x1) in F1; [discriminate|]. rewrite E1. apply in_or_app. right. left. reflexivity.
  - rewrite (F1 x2) in F2; [discriminate|]. rewrite E2. apply in_or_app. right. left. reflexivity.
  - reflexivity.
Qed.

Section Builder.
  Context {D M : Type}.
  Implicit Types (cs : list (bcall D M)) (b : builder D M).

  Lemma apply_calls_app b cs cs' :
    apply_calls b (cs ++ cs') = match apply_calls b cs with None => None | Some b' => apply_calls b' cs' end.
  Proof.
    revert b. induction cs as [|c cs IH]; intro b; cbn; [reflexivity|].
    destruct (apply_call b c); [apply IH | reflexivity].
  Qed.

  (** The builder after the calls, field by field. *)
  Record built (now : time) cs b : Prop := {
    bt_data : last_set sets_data cs None (b_data b);
    bt_metadata : last_set sets_metadata cs None (b_metadata b);
    bt_max : last_set (fun c => option_map Some (sets_max_attempts c)) cs None (b_max_attempts b);
    bt_at : last_set sets_scheduled_at cs now (b_scheduled_at b);
    bt_tags : tags_are cs (b_tags b);
    bt_priority : last_set sets_priority cs 0 (b_priority b);
    bt_criteria : last_set sets_criteria cs None (b_criteria b)
  }.

  Lemma tags_are_snoc cs c tags :
    sets_tags c = None -> tags_are cs tags -> tags_are (cs ++ [c]) (tags ++ adds c).
  Proof.
    intros H [[b [l [a [-> [-> H2]]]]]|[H1 ->]].
    - left. exists b, l, (a ++ [c]). rewrite <- app_assoc. repeat split.
      + rewrite flat_map_app. cbn. rewrite app_nil_r, app_assoc. reflexivity.
      + intros y Hy. apply in_app_or in Hy. destruct Hy as [Hy|[<-|[]]]; auto.
    - right. split.
      + intros y Hy. apply in_app_or in Hy. destruct Hy as [Hy|[<-|[]]]; auto.
      + rewrite flat_map_app. cbn. rewrite app_nil_r. reflexivity.
  Qed.

  Lemma tags_are_snoc_same cs c tags :
    sets_tags c = None -> adds c = [] -> tags_are cs tags -> tags_are (cs ++ [c]) tags.
  Proof. intros H1 H2 H. rewrite <- (app_nil_r tags), <- H2. apply tags_are_snoc; auto. Qed.

  Lemma built_all now cs : forall b, apply_calls (builder_default now) cs = Some b -> built now cs b.
  Proof.
    induction cs as [|c cs IH] using rev_ind; intros b H.
    - cbn in H. injection H as <-. split; try (apply last_set_nil). right. split; [intros x [] | reflexivity].
    - rewrite apply_calls_app in H. destruct (apply_calls (builder_default now) cs) as [b0|]; [|discriminate].
      specialize (IH b0 eq_refl). destruct IH as [H1 H2 H3 H4 H5 H6 H7]. cbn in H.
      destruct (apply_call b0 c) as [b1|] eqn:E; [|discriminate]. injection H as <-.
      destruct c as [d|m|n|t|t d|tag|tags|u|n]; cbn in E;
        try (injection E as <-; split; cbn;
             try (apply last_set_snoc_some; reflexivity);
             try (apply last_set_snoc_none; [reflexivity | assumption]);
             try (apply tags_are_snoc_same; [reflexivity | reflexivity | assumption]);
             try (apply tags_are_snoc; [reflexivity | assumption])).
      + unfold schedule_in, dt_add in E. destruct (in_dt (t + d)); [|discriminate]. injection E as <-.
        split; cbn;
          try (apply last_set_snoc_some; reflexivity);
          try (apply last_set_snoc_none; [reflexivity | assumption]);
          try (apply tags_are_snoc_same; [reflexivity | reflexivity | assumption]).
      + left. exists cs, tags, []. cbn. rewrite app_nil_r. repeat split; auto. intros x [].
  Qed.

  Lemma last_set_default {C A} (f : C -> option A) (cs : list C) d v :
    last_set (fun c => option_map Some (f c)) cs None v ->
    last_set f cs d (match v with Some x => x | None => d end).
  Proof.
    intros [[b [x [a [-> [H1 H2]]]]]|[H1 ->]].
    - destruct (f x) as [y|] eqn:E; [|discriminate]. cbn in H1. injection H1 as <-.
      left. exists b, x, a. repeat split; auto. intros z Hz. specialize (H2 z Hz).
      destruct (f z); [discriminate | reflexivity].
    - right. split; [|reflexivity]. intros z Hz. specialize (H1 z Hz).
      destruct (f z); [discriminate | reflexivity].
  Qed.

  Lemma last_set_default_opt {C A} (f : C -> option (option A)) (cs : list C) d v :
    (forall x, f x <> Some None) -> last_set f cs None v ->
    last_set f cs d (match v with Some x => Some x | None => d end).
  Proof.
    intros Hf [[b [x [a [-> [H1 H2]]]]]|[H1 ->]].
    - destruct v as [y|]; [|exfalso; exact (Hf x H1)]. left. exists b, x, a. auto.
    - right. auto.
  Qed.

  Lemma describes_request (c : codec D M) ex now cs b e :
    apply_calls (builder_default now) cs = Some b -> request c ex b = Some e ->
    describes c ex now cs e.
  Proof.
    intros Hb Hr. destruct (built_all now cs b Hb) as [H1 H2 H3 H4 H5 H6 H7].
    unfold request, enc_opt in Hr.
    destruct (match b_data b with Some x => enc_data c x | None => Some JNull end) as [dv|] eqn:Ed;
      [|discriminate].
    destruct (match b_metadata b with Some x => enc_meta c x | None => Some JNull end) as [mv|] eqn:Em;
      [|discriminate].
    injection Hr as <-. split; cbn; auto.
    - exists (b_data b). split; [exact H1|]. destruct (b_data b); cbn; congruence.
    - exists (b_metadata b). split; [exact H2|]. destruct (b_metadata b); cbn; congruence.
    - apply last_set_default. exact H3.
    - apply (last_set_default_opt sets_criteria); [|exact H7]. intros []; discriminate.
  Qed.
End Builder.

(** * Typed jobs *)

Section Typed.
  Context {D M : Type}.
  Variable c : codec D M.

  Lemma try_u16 z : 0 <= z <= 65535 -> try_into_u16 z = Some z.
  Proof. intro H. unfold try_into_u16, in_u16. replace ((0 <=? z) && (z <=? 65535)) with true by lia. reflexivity. Qed.

  Lemma typed_ok j : data_round_trips c -> metadata_round_trips c -> well_typed c j -> counters_u16 j ->
    exists t, typed_of_stored c j = ROk t /\ reads_as c j t.
  Proof.
    intros Hd Hm [[d Hjd] [m Hjm]] [Ha [Hx Hp]]. unfold typed_of_stored.
    rewrite (Hd d _ Hjd), (try_u16 _ Ha), (try_u16 _ Hx), (try_u16 _ Hp).
    destruct (j_metadata j) as [|bb|n|s|l|l] eqn:E.
    1: { cbn. eexists. split; [reflexivity|]. split; cbn; auto. }
    all: destruct m as [m|]; cbn in Hjm; [|discriminate]; unfold dec_opt; rewrite (Hm m _ Hjm); cbn;
      (eexists; split; [reflexivity|]; split; cbn; auto; congruence).
  Qed.

  Lemma typed_reads j t : data_round_trips c -> metadata_round_trips c -> well_typed c j ->
    typed_of_stored c j = ROk t -> reads_as c j t /\ counters_u16 j.
  Proof.
    intros Hd Hm Hw Ht. assert (Hu : counters_u16 j).
    { unfold typed_of_stored, try_into_u16 in Ht.
      destruct (dec_data c _); [|discriminate]. destruct (dec_opt _ _); [|discriminate].
      destruct (in_u16 (j_attempt j)) eqn:E1; [|discriminate].
      destruct (in_u16 (j_max_attempts j)) eqn:E2; [|discriminate].
      destruct (in_u16 (j_priority j)) eqn:E3; [|discriminate].
      unfold in_u16 in *. split; [lia | split; lia]. }
    split; [|exact Hu]. destruct (typed_ok j Hd Hm Hw Hu) as [t' [H1 H2]].
    rewrite Ht in H1. injection H1 as ->. exact H2.
  Qed.

  Lemma stored_again j t : reads_as c j t -> stored_of_typed c t = ROk j.
  Proof.
    intros [H1 H2 H3 H4 H5 H6 H7 H8 H9 H10 H11 H12 H13 H14 H15 H16].
    unfold stored_of_typed. rewrite H4.
    assert (He : enc_opt (enc_meta c) (tj_metadata t) = Some (j_metadata j)).
    { unfold enc_opt, stored_as in *. destruct (tj_metadata t); congruence. }
    rewrite He. rewrite H1, H2, H3, H6, H7, H8, H9, H10, H11, H12, H13, H14, H15, H16.
    destruct j; reflexivity.
  Qed.

  Lemma typed_all_ok l :
    data_round_trips c -> metadata_round_trips c ->
    (forall j, In j l -> well_typed c j /\ counters_u16 j) ->
    exists ts, typed_of_stored_all c l = ROk ts /\ Forall2 (reads_as c) l ts.
  Proof.
    intros Hd Hm. induction l as [|j l IH]; cbn; intro Hall; [eauto|].
    destruct (Hall j (or_introl eq_refl)) as [Hw Hu].
    destruct (typed_ok j Hd Hm Hw Hu) as [t [Ht Hr]].
    destruct IH as [ts [Hts Hf]]; [intros x Hx; apply Hall; auto|].
    rewrite Ht, Hts. eauto.
  Qed.

  Lemma typed_all_panic l : data_round_trips c -> metadata_round_trips c ->
    (forall j, In j l -> well_typed c j) ->
    (exists j, In j l /\ ~ counters_u16 j) -> typed_of_stored_all c l = RPanic.
  Proof.
    intros Hd Hm. induction l as [|j l IH]; intros Hw [j0 [Hj0 Hc]]; [destruct Hj0|].
    cbn [typed_of_stored_all].
    assert (Hcase : typed_of_stored c j = RPanic \/ exists t, typed_of_stored c j = ROk t /\ counters_u16 j).
    { unfold typed_of_stored. destruct (Hw j (or_introl eq_refl)) as [[d Hjd] [m Hjm]].
      rewrite (Hd d _ Hjd).
      assert (Hm' : exists mm, dec_opt (dec_meta c) (j_metadata j) = Some mm).
      { unfold dec_opt. destruct (j_metadata j) eqn:E; [eauto|..];
          (destruct m as [m|]; cbn in Hjm; [|discriminate]; rewrite (Hm m _ Hjm); cbn; eauto). }
      destruct Hm' as [mm ->]. unfold try_into_u16, in_u16, counters_u16.
      destruct ((0 <=? j_attempt j) && _) eqn:E1; [|auto].
      destruct ((0 <=? j_max_attempts j) && _) eqn:E2; [|auto].
      destruct ((0 <=? j_priority j) && _) eqn:E3; [|auto]. right. eexists. split; [reflexivity|]. lia. }
    destruct Hcase as [->|[t [-> Hu]]]; [reflexivity|].
    rewrite IH; [reflexivity | intros x Hx; apply Hw; right; exact Hx |].
    exists j0. split; [|exact Hc]. destruct Hj0 as [<-|H]; [contradiction | exact H].
  Qed.
End Typed.

(** * Global backend *)

Section Global.
  Context {D M : Type}.
  Variable c : codec D M.
  Variable ex : exec_consts.
  Variable p : profile.

  Lemma set_nth_length {A} n (x : A) l : length (set_nth n x l) = length l.
  Proof. revert n. induction l as [|y l IH]; intros [|n]; cbn; auto. Qed.

  Lemma nth_set_nth_other {A} i k (x : A) l : i <> k -> nth_error (set_nth i x l) k = nth_error l k.
  Proof.
    revert i k. induction l as [|y l IH]; intros [|i] [|k] H; cbn; try reflexivity; try congruence.
    apply IH. congruence.
  Qed.

  Lemma on_target_cell {A} s on (f : mem -> mem * rres A) s' r :
    on_target s on f = Some (s', r) ->
    g_cell s' = g_cell s /\ length (g_backends s') = length (g_backends s).
  Proof.
    unfold on_target, on_global, g_as_ref, on_backend.
    destruct on as [i|]; [|destruct (g_cell s) as [i|] eqn:E].
    - destruct (nth_error _ _); [|discriminate]. destruct (f m). intro H. injection H as <- _. cbn.
      rewrite set_nth_length. auto.
    - destruct (nth_error _ _); [|discriminate]. destruct (f m). intro H. injection H as <- _. cbn.
      rewrite set_nth_length. auto.
    - intro H. injection H as <- _. auto.
  Qed.

  Lemma g_step_cell now s call s' r : g_step c ex p now s call = Some (s', r) ->
    length (g_backends s') = length (g_backends s)
    /\ g_cell s' = match g_cell s, call with None, GSet i => Some i | x, _ => x end.
  Proof.
    destruct call as [i|on b|on id rs|on id|on t|on w]; cbn [g_step].
    - unfold g_set. destruct (g_cell s) eqn:E; intro H; injection H as <- _; cbn; auto.
    - unfold tag_result. destruct (on_target _ _ _) as [[s1 a]|] eqn:E; [|discriminate].
      intro H. injection H as <- _. apply on_target_cell in E. destruct E as [-> ->].
      destruct (g_cell s); auto.
    - unfold tag_result. destruct (on_target _ _ _) as [[s1 a]|] eqn:E; [|discriminate].
      intro H. injection H as <- _. apply on_target_cell in E. destruct E as [-> ->].
      destruct (g_cell s); auto.
    - unfold tag_result. destruct (on_target _ _ _) as [[s1 a]|] eqn:E; [|discriminate].
      intro H. injection H as <- _. apply on_target_cell in E. destruct E as [-> ->].
      destruct (g_cell s); auto.
    - unfold tag_result. destruct (on_target _ _ _) as [[s1 a]|] eqn:E; [|discriminate].
      intro H. injection H as <- _. apply on_target_cell in E. destruct E as [-> ->].
      destruct (g_cell s); auto.
    - unfold tag_result. destruct (on_target _ _ _) as [[s1 a]|] eqn:E; [|discriminate].
      intro H. injection H as <- _. apply on_target_cell in E. destruct E as [-> ->].
      destruct (g_cell s); auto.
  Qed.

  Lemma g_run_cell cs : forall s s' rs, g_run c ex p s cs = Some (s', rs) ->
    length (g_backends s') = length (g_backends s)
    /\ g_cell s' = match g_cell s with None => first_set cs | x => x end.
  Proof.
    induction cs as [|[now call] cs IH]; intros s s' rs H; cbn [g_run] in H.
    - injection H as <- _. cbn. destruct (g_cell s); auto.
    - destruct (g_step c ex p now s call) as [[s1 r]|] eqn:E; [|discriminate].
      destruct (g_run c ex p s1 cs) as [[s2 rs']|] eqn:E2; [|discriminate]. injection H as <- _.
      destruct (g_step_cell _ _ _ _ _ E) as [H1 H2]. destruct (IH _ _ _ E2) as [H3 H4].
      split; [congruence|]. rewrite H4, H2. cbn [first_set].
      destruct (g_cell s) as [i|]; destruct call; reflexivity.
  Qed.

  Lemma g_step_unaddressed now s call i :
    unaddressed call -> g_cell s = Some i ->
    g_step c ex p now s call = g_step c ex p now s (addressed i call).
  Proof.
    intros Hu Hc. destruct call as [k|on b|on id rs|on id|on t|on w]; cbn in Hu; [contradiction|..];
      subst on; cbn [g_step addressed on_target]; unfold on_global, g_as_ref; rewrite Hc; reflexivity.
  Qed.

  Lemma g_step_no_global now s call :
    unaddressed call -> g_cell s = None ->
    exists r, g_step c ex p now s call = Some (s, r) /\ no_global r.
  Proof.
    intros Hu Hc. unfold no_global. destruct call as [k|on b|on id rs|on id|on t|on w]; cbn in Hu; [contradiction|..];
      subst on; cbn [g_step on_target]; unfold on_global, g_as_ref; rewrite Hc; cbn; eauto 6.
  Qed.

  Lemma on_target_other {A} s i k (f : mem -> mem * rres A) s' r :
    on_target s (Some i) f = Some (s', r) -> k <> i ->
    nth_error (g_backends s') k = nth_error (g_backends s) k.
  Proof.
    cbn. unfold on_backend. destruct (nth_error (g_backends s) i); [|discriminate].
    destruct (f m). intros H Hk. injection H as <- _. cbn. apply nth_set_nth_other. congruence.
  Qed.
End Global.

(** * Assertions *)

Lemma cond_sat j c : sat (cond_query c) j <-> cond_holds j c.
Proof.
  destruct c; cbn; split; intro H; try (inversion H; subst; auto; fail);
    try (constructor; auto; fail); try (inversion H; subst; lia); try (constructor; lia).
Qed.

Lemma conds_sat j cs : sat (QAnd (map cond_query cs)) j <-> forall c, In c cs -> cond_holds j c.
Proof.
  split.
  - intros H c Hc. inversion H as [|? ? Hall| | | | | | | | | | | |]; subst. apply cond_sat.
    apply Hall. apply in_map. exact Hc.
  - intros H. constructor. intros q Hq. apply in_map_iff in Hq. destruct Hq as [c [<- Hc]].
    apply cond_sat. auto.
Qed.

Lemma exactly_removed_iff {A} (P Q : A -> Prop) l l' :
  (forall x, P x <-> Q x) -> exactly_removed P l l' -> exactly_removed Q l l'.
Proof.
  intros H [H1 H2]. split.
  - clear H2. induction H1; [constructor | constructor; auto | apply ret_drop; [apply H; auto | auto]].
  - intros x Hx Hq. apply (H2 x Hx), H, Hq.
Qed.

Lemma exactly_removed_unique {A} (P : A -> Prop) l : forall l1 l2,
  exactly_removed P l l1 -> exactly_removed P l l2 -> l1 = l2.
Proof.
  induction l as [|x l IH]; intros l1 l2 [H1 H2] [H3 H4].
  - inversion H1; inversion H3; subst; reflexivity.
  - inversion H1 as [|? ? l1' Hr1|? ? ? Hp1 Hr1]; subst;
      inversion H3 as [|? ? l2' Hr2|? ? ? Hp2 Hr2]; subst.
    + f_equal. apply IH; (split; [assumption|]); intros y Hy; [apply H2 | apply H4]; right; exact Hy.
    + exfalso. apply (H2 x); [left; reflexivity | assumption].
    + exfalso. apply (H4 x); [left; reflexivity | assumption].
    + apply IH; split; assumption.
Qed.

Lemma assert_query m cs : m_poisoned m = false ->
  exists kept, mem_query (QAnd (map cond_query cs)) m = Ok kept
    /\ exactly_removed (fun j => ~ (forall c, In c cs -> cond_holds j c)) (jobs_of m) kept
    /\ exists l, mem_query (QTagsAllOf []) m = Ok l.
Proof.
  intro Hp. destruct (query_lemma Debug 0 m (QAnd (map cond_query cs)) Hp) as [l [H1 H2]].
  cbn [mem_step] in H1. injection H1 as H1. exists l. split; [exact H1|]. split.
  - eapply exactly_removed_iff; [|exact H2]. intro x. cbn beta. rewrite conds_sat. reflexivity.
  - destruct (query_lemma Debug 0 m (QTagsAllOf []) Hp) as [l2 [H3 _]]. cbn [mem_step] in H3.
    injection H3 as H3. eauto.
Qed.
