(** Lemmas about workers driving the in-memory backend. *)
From Verif Require Import Base Chrono Types TypesProofs Query Memory MemSpec QueryProofs MemProofs MemHist MemHist2
  MemInv Codec Runner RunnerSpec WorkerProofs.

(** * One job *)

Definition b2z (b : bool) : Z := if b then 1 else 0.
Definition is_status (st : status) (j : job) : bool := if status_eq_dec (j_status j) st then true else false.

Lemma is_status_true st j : is_status st j = true <-> j_status j = st.
Proof. unfold is_status. destruct (status_eq_dec (j_status j) st); intuition congruence. Qed.

Lemma is_status_eq st j : b2z (is_status st j) = if status_eq_dec (j_status j) st then 1 else 0.
Proof. unfold is_status. destruct (status_eq_dec (j_status j) st); reflexivity. Qed.

Definition numbered (n : Z) : list Z := map Z.of_nat (seq 1 (Z.to_nat n)).

Lemma numbered_succ n : 0 <= n -> numbered (n + 1) = numbered n ++ [n + 1].
Proof.
  intro H. unfold numbered. replace (Z.to_nat (n + 1)) with (S (Z.to_nat n)) by lia.
  rewrite seq_S, map_app. cbn [map]. f_equal. f_equal. lia.
Qed.

(** The state of one job after [r] executions to a result, [f] of them failures. *)
Record fine (r f : Z) (alone : Prop) (mx : Z) (j : job) : Prop := {
  fi_attempt : j_attempt j = r + b2z (is_status Executing j);
  fi_max : j_max_attempts j = mx;
  fi_range : 0 <= j_attempt j <= mx;
  fi_big : mx <= 2147483646;
  fi_wait : waiting j -> j_attempt j < mx;
  fi_exec : j_status j = Executing -> 1 <= j_attempt j;
  fi_disc : j_status j = Discarded -> j_attempt j = mx;
  fi_times : timestamps_match j;
  fi_alone : alone -> mx <= 65535
    /\ map je_attempt (j_errors j) = numbered (r - b2z (is_status Complete j))
    /\ f = r - b2z (is_status Complete j) - b2z (is_status Cancelled j)
    /\ (waiting j -> (j_status j = Scheduled <-> j_attempt j = 0))
}.

Lemma fine_weaken r f (alone alone' : Prop) mx j : (alone' -> alone) -> fine r f alone mx j -> fine r f alone' mx j.
Proof. intros H [H1 H2 H3 H4 H5 H6 H7 H8 H9]. split; auto. Qed.

Ltac fine_times H := unfold timestamps_match in *; cbn; intuition congruence.

Lemma fine_new now id e alone :
  1 <= eq_max_attempts e <= 65535 -> fine 0 0 alone (eq_max_attempts e) (new_job now id e).
Proof.
  intro H. split; cbn; try lia; try discriminate; try reflexivity.
  - unfold timestamps_match; cbn. intuition congruence.
  - intros _. split; [lia|]. split; [reflexivity|]. split; [reflexivity|]. intuition.
Qed.

Lemma after_conflict_same e j : keeps_attempts e ->
  j_id (after_conflict e j) = j_id j /\ j_status (after_conflict e j) = j_status j
  /\ j_attempt (after_conflict e j) = j_attempt j /\ j_max_attempts (after_conflict e j) = j_max_attempts j
  /\ j_errors (after_conflict e j) = j_errors j /\ j_completed_at (after_conflict e j) = j_completed_at j
  /\ j_cancelled_at (after_conflict e j) = j_cancelled_at j /\ j_discarded_at (after_conflict e j) = j_discarded_at j.
Proof.
  intro Hk. unfold after_conflict. unfold keeps_attempts in Hk. destruct (eq_criteria e) as [uq|]; [|auto 10].
  destruct (uc_on_conflict uq) as [|r] eqn:E; [auto 10|]. destruct in_dec; [|auto 10]. cbn.
  rewrite (Hk uq r eq_refl E). auto 10.
Qed.

Lemma fine_conflict r f alone mx e j : keeps_attempts e -> fine r f alone mx j ->
  fine r f alone mx (after_conflict e j).
Proof.
  intros Hk Hj. destruct (after_conflict_same e j Hk) as [_ [E1 [E2 [E3 [E4 [E5 [E6 E7]]]]]]].
  destruct Hj as [H1 H2 H3 H4 H5 H6 H7 H8 H9].
  split; unfold waiting, timestamps_match, is_status in *; rewrite ?E1, ?E2, ?E3, ?E4, ?E5, ?E6, ?E7; auto.
Qed.

Lemma status_cases j : waiting j \/ j_status j = Executing \/ finished j.
Proof. unfold waiting, finished. destruct (j_status j); auto 10. Qed.

Lemma fine_hand_out r f alone mx now j : waiting j -> fine r f alone mx j ->
  fine r f alone mx (after_hand_out now j).
Proof.
  intros Hw [H1 H2 H3 H4 H5 H6 H7 H8 H9]. specialize (H5 Hw).
  assert (E : forall st, st <> Scheduled -> st <> Retryable -> is_status st j = false).
  { intros st N1 N2. unfold is_status. destruct (status_eq_dec (j_status j) st); [|reflexivity].
    destruct Hw; congruence. }
  rewrite (E Executing) in * by discriminate. rewrite (E Complete), (E Cancelled) in H9 by discriminate.
  split; cbn in *; try lia; try discriminate; auto.
  - intros [H|H]; discriminate.
  - unfold timestamps_match in *; cbn. destruct H8 as [T1 [T2 T3]].
    destruct Hw as [Hw|Hw]; rewrite Hw in *; intuition discriminate.
  - intro Ha. destruct (H9 Ha) as [A1 [A2 [A3 A4]]]. split; [exact A1|]. split; [exact A2|]. split; [exact A3|].
    intros [H|H]; discriminate.
Qed.

Lemma exec_statuses j : j_status j = Executing ->
  is_status Executing j = true /\ is_status Complete j = false /\ is_status Cancelled j = false.
Proof. intro H. unfold is_status. rewrite H. auto. Qed.

Lemma exec_times j : j_status j = Executing -> timestamps_match j ->
  j_completed_at j = None /\ j_cancelled_at j = None /\ j_discarded_at j = None.
Proof.
  intros H [T1 [T2 T3]]. rewrite H in *.
  destruct (j_completed_at j), (j_cancelled_at j), (j_discarded_at j); intuition discriminate.
Qed.

Lemma fine_complete r f alone mx now j : j_status j = Executing -> fine r f alone mx j ->
  fine (r + 1) f alone mx (after_complete now j).
Proof.
  intros He [H1 H2 H3 H4 H5 H6 H7 H8 H9]. specialize (H6 He).
  destruct (exec_statuses j He) as [E1 [E2 E3]]. rewrite E1 in H1. rewrite E2, E3 in H9. cbn in H1, H9.
  destruct (exec_times j He H8) as [T1 [T2 T3]].
  split; cbn; try lia; try discriminate; auto.
  - intros [H|H]; discriminate.
  - unfold timestamps_match; cbn. rewrite T2, T3. intuition congruence.
  - intro Ha. destruct (H9 Ha) as [A1 [A2 [A3 A4]]]. split; [exact A1|].
    split; [rewrite A2; f_equal; lia|]. split; [lia|]. intros [H|H]; discriminate.
Qed.

Lemma errors_snoc (r mx : Z) (errs : list job_error) (a : Z) ty msg now :
  map je_attempt errs = numbered (r - 0) -> a = r + 1 -> 0 <= r -> a <= mx -> mx <= 65535 ->
  map je_attempt (errs ++ [mk_job_error (a mod 65536) ty msg now]) = numbered (r + 1 - 0).
Proof.
  intros H -> H0 H1 H2. rewrite map_app, H. cbn [map je_attempt].
  rewrite Z.mod_small by lia. replace (r - 0) with r by lia. replace (r + 1 - 0) with (r + 1) by lia.
  rewrite numbered_succ by lia. reflexivity.
Qed.

Lemma fine_retryable r f alone mx now t ty msg j : j_status j = Executing -> j_attempt j <> j_max_attempts j ->
  fine r f alone mx j -> fine (r + 1) (f + 1) alone mx (after_retryable now t ty msg j).
Proof.
  intros He Hne [H1 H2 H3 H4 H5 H6 H7 H8 H9]. specialize (H6 He).
  destruct (exec_statuses j He) as [E1 [E2 E3]]. rewrite E1 in H1. rewrite E2, E3 in H9. cbn in H1, H9.
  destruct (exec_times j He H8) as [T1 [T2 T3]].
  split; cbn; try lia; try discriminate; auto.
  - unfold timestamps_match; cbn. rewrite T1, T2, T3. intuition congruence.
  - intro Ha. destruct (H9 Ha) as [A1 [A2 [A3 A4]]]. split; [exact A1|].
    split; [apply errors_snoc with mx; auto; lia|]. split; [lia|]. intros _. split; [discriminate|lia].
Qed.

Lemma fine_discarded r f alone mx now ty msg j : j_status j = Executing -> j_attempt j = j_max_attempts j ->
  fine r f alone mx j -> fine (r + 1) (f + 1) alone mx (after_discarded now ty msg j).
Proof.
  intros He Hne [H1 H2 H3 H4 H5 H6 H7 H8 H9]. specialize (H6 He).
  destruct (exec_statuses j He) as [E1 [E2 E3]]. rewrite E1 in H1. rewrite E2, E3 in H9. cbn in H1, H9.
  destruct (exec_times j He H8) as [T1 [T2 T3]].
  split; cbn; try lia; try discriminate; auto.
  - intros [H|H]; discriminate.
  - unfold timestamps_match; cbn. rewrite T1, T2. intuition congruence.
  - intro Ha. destruct (H9 Ha) as [A1 [A2 [A3 A4]]]. split; [exact A1|].
    split; [apply errors_snoc with mx; auto; lia|]. split; [lia|]. intros [H|H]; discriminate.
Qed.

Lemma fine_cancelled r f alone mx now ty msg j : j_status j = Executing ->
  fine r f alone mx j -> fine (r + 1) f alone mx (after_cancelled now ty msg j).
Proof.
  intros He [H1 H2 H3 H4 H5 H6 H7 H8 H9]. specialize (H6 He).
  destruct (exec_statuses j He) as [E1 [E2 E3]]. rewrite E1 in H1. rewrite E2, E3 in H9. cbn in H1, H9.
  destruct (exec_times j He H8) as [T1 [T2 T3]].
  split; cbn; try lia; try discriminate; auto.
  - intros [H|H]; discriminate.
  - unfold timestamps_match; cbn. rewrite T1, T3. intuition congruence.
  - intro Ha. destruct (H9 Ha) as [A1 [A2 [A3 A4]]]. split; [exact A1|].
    split; [apply errors_snoc with mx; auto; lia|]. split; [lia|]. intros [H|H]; discriminate.
Qed.

Lemma fine_snoozed r f alone mx t j : j_status j = Executing ->
  fine r f alone mx j -> fine r f alone mx (after_snoozed t j).
Proof.
  intros He [H1 H2 H3 H4 H5 H6 H7 H8 H9]. specialize (H6 He).
  destruct (exec_statuses j He) as [E1 [E2 E3]]. rewrite E1 in H1. rewrite E2, E3 in H9. cbn in H1, H9.
  destruct (exec_times j He H8) as [T1 [T2 T3]].
  split; unfold is_status, waiting, timestamps_match in *; cbn; rewrite ?T1, ?T2, ?T3;
    destruct (Z.eq_dec (j_attempt j) 1) as [E|E]; cbn; try lia; try discriminate; auto;
    try (intuition congruence).
  - intro Ha. destruct (H9 Ha) as [A1 [A2 [A3 A4]]]. split; [exact A1|].
    split; [exact A2|]. split; [lia|]. intros _. split; [lia|reflexivity].
  - intro Ha. destruct (H9 Ha) as [A1 [A2 [A3 A4]]]. split; [exact A1|].
    split; [exact A2|]. split; [lia|]. intros _. split; [discriminate|lia].
Qed.

Lemma fine_cancel_waiting r f alone mx now ty msg j : waiting j ->
  fine r f alone mx j -> fine r f False mx (after_cancelled now ty msg j).
Proof.
  intros Hw [H1 H2 H3 H4 H5 H6 H7 H8 H9]. specialize (H5 Hw).
  assert (E : is_status Executing j = false).
  { unfold is_status. destruct (status_eq_dec (j_status j) Executing); [|reflexivity]. destruct Hw; congruence. }
  rewrite E in H1. cbn in H1.
  split; cbn; try lia; try discriminate; auto; try tauto.
  - unfold timestamps_match in *; cbn. destruct H8 as [T1 [T2 T3]].
    destruct Hw as [Hw|Hw]; rewrite Hw in *; intuition congruence.
Qed.

Lemma fine_rerun r f alone mx now j : j_status j <> Executing -> mx < 2147483646 ->
  fine r f alone mx j -> fine r f False (mx + 1) (after_rerun now j).
Proof.
  intros He Hm [H1 H2 H3 H4 H5 H6 H7 H8 H9].
  assert (E : is_status Executing j = false).
  { unfold is_status. destruct (status_eq_dec (j_status j) Executing); [contradiction|reflexivity]. }
  rewrite E in H1. cbn in H1.
  split; unfold is_status, waiting, timestamps_match in *; cbn;
    destruct (Z.eq_dec (j_attempt j) 1) as [E1|E1]; cbn; try lia; try discriminate; auto; try tauto;
    try (intuition congruence).
Qed.

(** * Outcomes *)

Lemma outcomes_cons id i o s m h :
  outcomes id (mk_sys m h ((i, o) :: s_log s)) = (if i =? id then [o] else []) ++ outcomes id s.
Proof. unfold outcomes; cbn. destruct (i =? id); reflexivity. Qed.

Lemma results_cons id i o s m h :
  results id (mk_sys m h ((i, o) :: s_log s)) = results id s + b2z ((i =? id) && negb (is_snooze o)).
Proof.
  unfold results. rewrite outcomes_cons. destruct (i =? id); cbn [app andb b2z]; [|lia].
  cbn [filter]. destruct (negb (is_snooze o)); cbn [length b2z]; lia.
Qed.

Lemma failures_cons id i o s m h :
  failures id (mk_sys m h ((i, o) :: s_log s)) = failures id s + b2z ((i =? id) && is_failure o).
Proof.
  unfold failures. rewrite outcomes_cons. destruct (i =? id); cbn [app andb b2z]; [|lia].
  cbn [filter]. destruct (is_failure o); cbn [length b2z]; lia.
Qed.

Lemma outcomes_none id s : (forall x, In x (s_log s) -> fst x <> id) -> outcomes id s = [].
Proof.
  unfold outcomes. induction (s_log s) as [|x l IH]; intro H; [reflexivity|]. cbn.
  destruct (Z.eqb_spec (fst x) id) as [E|_]; [destruct (H x (or_introl eq_refl) E)|].
  apply IH. intros y Hy. apply H. right. exact Hy.
Qed.

Lemma drop_nth_in {A} i (l : list A) x : In x (drop_nth i l) -> In x l.
Proof.
  revert i. induction l as [|y l IH]; intros [|i]; cbn; auto. intros [H|H]; [auto|right; eapply IH; exact H].
Qed.

Lemma drop_nth_split {A} i (l : list A) x : nth_error l i = Some x ->
  exists l1 l2, l = l1 ++ x :: l2 /\ drop_nth i l = l1 ++ l2.
Proof.
  revert i. induction l as [|y l IH]; intros [|i] H; cbn in H; try discriminate.
  - injection H as ->. exists [], l. auto.
  - destruct (IH i H) as [l1 [l2 [-> E]]]. exists (y :: l1), l2. cbn. rewrite E. auto.
Qed.

(** * The system *)

Section S.
  Context {D M : Type}.
  Variable c : codec D M.
  Variable fns : executor_fns D M.
  Variable show : Z -> string.
  Variable p : profile.
  Notation sstep := (sys_step c fns show p).
  Notation orun := (orderly_run c fns show p).
  Notation born := (allowed c fns show p).

  Definition h_id (h : holding) : Z := j_id (h_job h).

  (** A holding fits a stored job. *)
  Definition fits (h : holding) (j : job) : Prop :=
    j_id j = h_id h /\ j_status j = Executing /\ j_attempt j = j_attempt (h_job h)
    /\ j_max_attempts j = j_max_attempts (h_job h)
    /\ (forall x, h_exec h = Some x -> x_id x = h_id h
          /\ x_final x = (j_attempt (h_job h) =? j_max_attempts (h_job h))).

  Record sinv (es : list sevent) (s : sys) : Prop := {
    si_n : exists n, n <= requests es /\ id_inv n (s_mem s) /\ (forall x, In x (s_log s) -> drawn n (fst x));
    si_ok : m_poisoned (s_mem s) = false;
    si_nodup : NoDup (map h_id (s_held s));
    si_held : forall h, In h (s_held s) -> exists k, In k (m_jobs (s_mem s)) /\ fits h (kj_job k);
    si_executing : forall k, In k (m_jobs (s_mem s)) -> j_status (kj_job k) = Executing ->
      exists h, In h (s_held s) /\ h_id h = j_id (kj_job k);
    si_fine : forall k, In k (m_jobs (s_mem s)) ->
      exists mx, born es (j_id (kj_job k)) mx
        /\ fine (results (j_id (kj_job k)) s) (failures (j_id (kj_job k)) s) (left_alone (j_id (kj_job k)) es) mx (kj_job k);
    si_bound : forall id, results id s = 0 \/ exists mx, born es id mx /\ results id s <= mx
  }.

  Lemma sinv_init : sinv [] sys_init.
  Proof.
    split; cbn; try (intros ? []); try constructor.
    - exists 0. split; [unfold requests; cbn; lia|]. split; [apply id_inv_init|]. intros x [].
    - reflexivity.
  Qed.

  Definition reruns_ev (id : Z) (ev : sevent) : Z :=
    match ev with SOp _ (OpRerun i) => b2z (i =? id) | _ => 0 end.

  Lemma reruns_snoc id es ev : reruns id (es ++ [ev]) = reruns id es + reruns_ev id ev.
  Proof.
    unfold reruns, reruns_ev. rewrite filter_app, app_length. cbn [filter].
    destruct ev as [now o| |]; [destruct o|..]; cbn [length]; try lia. destruct (id0 =? id); cbn [length b2z]; lia.
  Qed.

  Lemma requests_snoc es ev : requests (es ++ [ev]) = requests es + match ev with SOp _ o => weight o | _ => 0 end.
  Proof.
    unfold requests. rewrite filter_app, app_length. cbn [filter].
    destruct ev as [now o| |]; [destruct o|..]; cbn [length weight]; lia.
  Qed.

  Lemma born_snoc es ev id m : born es id m -> born (es ++ [ev]) id (m + reruns_ev id ev).
  Proof.
    intros [es1 [now [e [es2 [s1 [-> [H1 [H2 [H3 [H4 ->]]]]]]]]]].
    exists es1, now, e, (es2 ++ [ev]), s1. rewrite <- app_assoc. split; [reflexivity|].
    repeat (split; [assumption|]). rewrite reruns_snoc. lia.
  Qed.

  Lemma reruns_ev_nonneg id ev : 0 <= reruns_ev id ev.
  Proof. destruct ev as [now o| |]; cbn; try lia. destruct o; try lia. destruct (id0 =? id); cbn; lia. Qed.

  Lemma left_alone_app id es es' : left_alone id (es ++ es') -> left_alone id es.
  Proof. intros H now o Hin. apply (H now o). apply in_or_app. auto. Qed.

  Lemma bound_snoc es ev s s' id :
    results id s' = results id s ->
    (results id s = 0 \/ exists mx, born es id mx /\ results id s <= mx) ->
    results id s' = 0 \/ exists mx, born (es ++ [ev]) id mx /\ results id s' <= mx.
  Proof.
    intros E [H|[mx [H1 H2]]]; rewrite E; [auto|]. right. exists (mx + reruns_ev id ev).
    split; [apply born_snoc; exact H1|]. pose proof (reruns_ev_nonneg id ev). lia.
  Qed.

  (** Jobs other than the one concerned. *)
  Lemma fine_other es ev s s' j :
    results (j_id j) s' = results (j_id j) s -> failures (j_id j) s' = failures (j_id j) s ->
    reruns_ev (j_id j) ev = 0 ->
    (exists mx, born es (j_id j) mx /\ fine (results (j_id j) s) (failures (j_id j) s) (left_alone (j_id j) es) mx j) ->
    exists mx, born (es ++ [ev]) (j_id j) mx
      /\ fine (results (j_id j) s') (failures (j_id j) s') (left_alone (j_id j) (es ++ [ev])) mx j.
  Proof.
    intros E1 E2 E3 [mx [H1 H2]]. exists mx. rewrite E1, E2. split.
    - apply (born_snoc es ev) in H1. rewrite E3, Z.add_0_r in H1. exact H1.
    - eapply fine_weaken; [|exact H2]. apply left_alone_app.
  Qed.

  (** Nothing changes in the store. *)
  Lemma sinv_same es s ev m' :
    sinv es s -> m_jobs m' = m_jobs (s_mem s) -> m_poisoned m' = false ->
    (exists n, n <= requests (es ++ [ev]) /\ id_inv n m' /\ (forall x, In x (s_log s) -> drawn n (fst x))) ->
    (forall k, In k (m_jobs (s_mem s)) -> reruns_ev (j_id (kj_job k)) ev = 0) ->
    sinv (es ++ [ev]) (mk_sys m' (s_held s) (s_log s)).
  Proof.
    intros [I1 I2 I3 I4 I5 I6 I7] Ej Hp Hn Hr. split; cbn [s_mem s_held s_log]; rewrite ?Ej; auto.
    - intros k Hk. apply (fine_other es ev s); auto.
    - intro id. apply (bound_snoc es ev s); auto.
  Qed.

  (** One job changes. *)
  Lemma sinv_update es s ev s' pre k post k' :
    sinv es s -> m_jobs (s_mem s) = pre ++ k :: post -> m_jobs (s_mem s') = pre ++ k' :: post ->
    let id := j_id (kj_job k) in
    j_id (kj_job k') = id ->
    m_poisoned (s_mem s') = false ->
    (exists n, n <= requests (es ++ [ev]) /\ id_inv n (s_mem s') /\ (forall x, In x (s_log s') -> drawn n (fst x))) ->
    (forall i, i <> id -> results i s' = results i s /\ failures i s' = failures i s /\ reruns_ev i ev = 0) ->
    (exists mx, born (es ++ [ev]) id mx
       /\ fine (results id s') (failures id s') (left_alone id (es ++ [ev])) mx (kj_job k')) ->
    NoDup (map h_id (s_held s')) ->
    (forall h, In h (s_held s') -> h_id h <> id -> In h (s_held s)) ->
    (forall h, In h (s_held s) -> h_id h <> id -> In h (s_held s')) ->
    (forall h, In h (s_held s') -> h_id h = id -> fits h (kj_job k')) ->
    (j_status (kj_job k') = Executing -> exists h, In h (s_held s') /\ h_id h = id) ->
    sinv (es ++ [ev]) s'.
  Proof.
    intros [I1 I2 I3 I4 I5 I6 I7] El El' id Eid Hp Hn Hoth Hfine Hnd Hh1 Hh2 Hh3 Hex.
    assert (Hne : forall x, In x pre \/ In x post -> j_id (kj_job x) <> id).
    { destruct I1 as [n [_ [Hi _]]]. pose proof (ii_nodup _ _ Hi) as Hd. rewrite El in Hd.
      intros x Hx. exact (nodup_other (fun k => j_id (kj_job k)) pre k post x Hd Hx). }
    split; auto.
    - intros h Hh. destruct (Z.eq_dec (h_id h) id) as [E|E].
      + exists k'. split; [rewrite El'; apply in_mid; auto | auto].
      + destruct (I4 h (Hh1 h Hh E)) as [k0 [Hk0 Hf]]. exists k0. split; [|exact Hf].
        rewrite El in Hk0. rewrite El'. apply in_mid in Hk0. apply in_mid. destruct Hk0 as [->|Hk0]; [|auto].
        destruct Hf as [Hf _]. exfalso. apply E. symmetry. exact Hf.
    - intros k0 Hk0 Hst. rewrite El' in Hk0. apply in_mid in Hk0. destruct Hk0 as [->|Hk0].
      + destruct (Hex Hst) as [h [Hh E]]. exists h. rewrite Eid. auto.
      + destruct (I5 k0) as [h [Hh E]]; [rewrite El; apply in_mid; auto | exact Hst|].
        exists h. split; [|exact E]. apply Hh2; [exact Hh|]. rewrite E. auto.
    - intros k0 Hk0. rewrite El' in Hk0. apply in_mid in Hk0. destruct Hk0 as [->|Hk0].
      + rewrite Eid. exact Hfine.
      + destruct (Hoth _ (Hne k0 Hk0)) as [R1 [R2 R3]].
        apply (fine_other es ev s); auto. apply I6. rewrite El. apply in_mid. auto.
    - intro i. destruct (Z.eq_dec i id) as [->|E].
      + right. destruct Hfine as [mx [B F]]. exists mx. split; [exact B|].
        pose proof (fi_attempt _ _ _ _ _ F) as F1. pose proof (fi_range _ _ _ _ _ F).
        assert (0 <= b2z (is_status Executing (kj_job k'))) by (destruct (is_status Executing (kj_job k')); cbn; lia). lia.
      + destruct (Hoth i E) as [R1 _]. apply (bound_snoc es ev s); auto.
  Qed.

  Lemma sinv_bounds es s : sinv es s -> in_bounds 2147483646 (m_jobs (s_mem s)).
  Proof.
    intros I k Hk. destruct (si_fine _ _ I k Hk) as [mx [_ F]].
    pose proof (fi_range _ _ _ _ _ F). pose proof (fi_big _ _ _ _ _ F). pose proof (fi_max _ _ _ _ _ F). lia.
  Qed.

  (** The id invariant after any operation. *)
  Lemma sinv_ids es s ev now o :
    sinv es s -> requests (es ++ [ev]) <= 4294967296 -> requests (es ++ [ev]) = requests es + weight o ->
    exists n, n <= requests (es ++ [ev]) /\ id_inv n (fst (mem_step p now (s_mem s) o))
      /\ (forall x, In x (s_log s) -> drawn n (fst x)).
  Proof.
    intros I Hr Hw. destruct (si_n _ _ I) as [n [Hn [Hi Hd]]].
    destruct (id_inv_step p now (s_mem s) o n Hi) as [n' [Hn' Hi']]; [lia|].
    exists n'. split; [lia|]. split; [exact Hi'|]. intros x Hx. eapply drawn_mono; [|apply Hd; exact Hx]. lia.
  Qed.

  Lemma unpoisoned_op es s now o :
    sinv es s -> age_fits now o -> m_poisoned (fst (mem_step p now (s_mem s) o)) = false.
  Proof.
    intros I Ha. destruct (si_n _ _ I) as [n [Hn [Hi Hd]]].
    apply (mem_step_unpoisoned p now (s_mem s) o 2147483646); auto.
    - exact (si_ok _ _ I).
    - exact (sinv_bounds es s I).
    - lia.
    - exact (ii_nodup _ _ Hi).
  Qed.

  (** An operation that leaves every executing job with its worker. *)
  Lemma sinv_op es s now o s' :
    sinv es s -> orun sys_init es s -> requests (es ++ [SOp now o]) <= 4294967296 ->
    orderly s (SOp now o) -> sstep s (SOp now o) = Some s' -> sinv (es ++ [SOp now o]) s'.
  Proof.
    intros I Hrun Hreq Hord Hs. cbn in Hs. injection Hs as <-.
    assert (Hage : age_fits now o).
    { destruct o; cbn; auto. cbn in Hord. destruct Hord as [_ H]. exact H. }
    pose proof (unpoisoned_op es s now o I Hage) as Hp.
    pose proof (sinv_ids es s (SOp now o) now o I Hreq (requests_snoc es _)) as Hn.
    destruct (si_n _ _ I) as [n0 [Hn0 [Hi0 Hd0]]].
    pose proof (mem_step_jstep p now (s_mem s) o (ii_nodup _ _ Hi0)) as Hj.
    destruct (mem_step p now (s_mem s) o) as [m' r] eqn:Es. cbn [fst] in *.
    remember (m_jobs (s_mem s)) as l eqn:El. remember (m_jobs m') as l' eqn:El'.
    assert (Hrr : forall x, (forall i, o <> OpRerun i) -> reruns_ev x (SOp now o) = 0).
    { intros x Hx. destruct o; cbn; auto. destruct (Hx id eq_refl). }
    assert (Hfits : forall k e, keeps_attempts e -> (forall h, fits h (kj_job k) -> fits h (after_conflict e (kj_job k)))).
    { intros k e He h [F1 [F2 [F3 [F4 F5]]]].
      destruct (after_conflict_same e (kj_job k) He) as [E0 [E1 [E2 [E3 _]]]].
      unfold fits. rewrite E0, E1, E2, E3. auto. }
    (* a job that is replaced by one with the same id while the holdings stay *)
    assert (Hupd : forall pre k post k', m_jobs (s_mem s) = pre ++ k :: post -> m_jobs m' = pre ++ k' :: post ->
      j_id (kj_job k') = j_id (kj_job k) ->
      (forall i, i <> j_id (kj_job k) -> reruns_ev i (SOp now o) = 0) ->
      (exists mx, born (es ++ [SOp now o]) (j_id (kj_job k)) mx
         /\ fine (results (j_id (kj_job k)) s) (failures (j_id (kj_job k)) s)
              (left_alone (j_id (kj_job k)) (es ++ [SOp now o])) mx (kj_job k')) ->
      (forall h, In h (s_held s) -> fits h (kj_job k) -> fits h (kj_job k')) ->
      (j_status (kj_job k') = Executing -> j_status (kj_job k) = Executing) ->
      sinv (es ++ [SOp now o]) (mk_sys m' (s_held s) (s_log s))).
    { intros pre k post k' E1 E2 E3 Hne Hf Hfit Hst.
      eapply (sinv_update es s _ _ pre k post k'); cbn [s_mem s_held s_log]; auto.
      - exact (si_nodup _ _ I).
      - intros h Hh E. apply Hfit; [exact Hh|]. destruct (si_held _ _ I h Hh) as [k0 [Hk0 F]].
        assert (k0 = k) as ->; [|exact F].
        apply (nodup_map_eq (fun k => j_id (kj_job k)) (m_jobs (s_mem s))).
        + exact (ii_nodup _ _ Hi0).
        + exact Hk0.
        + rewrite E1. apply in_mid. auto.
        + destruct F as [F _]. congruence.
      - intro E. apply (si_executing _ _ I k); [rewrite E1; apply in_mid; auto | auto]. }
    assert (Hold : forall k, In k (m_jobs (s_mem s)) -> (forall i, o <> OpRerun i) ->
      exists mx, born (es ++ [SOp now o]) (j_id (kj_job k)) mx
        /\ fine (results (j_id (kj_job k)) s) (failures (j_id (kj_job k)) s) (left_alone (j_id (kj_job k)) es) mx (kj_job k)).
    { intros k Hk Ho. destruct (si_fine _ _ I k Hk) as [mx [B F]]. exists mx. split; [|exact F].
      apply (born_snoc es (SOp now o)) in B. rewrite Hrr, Z.add_0_r in B by exact Ho. exact B. }
    destruct Hj as [o r l H|e i l H|e pre k0 post H H0|ex pre k0 post j' H H0|o i pre k0 post j' H H0 H1|ps l l' H].
    - (* nothing *)
      apply sinv_same; auto; [congruence|]. intros k Hk. subst l.
      destruct o as [e|ex|id|id t er|id er|id er|id t|ps|id|j|q|ex| |]; try reflexivity.
      (* a rerun has an effect if the job is there *)
      cbn. destruct (Z.eqb_spec id (j_id (kj_job k))) as [E|]; [|reflexivity]. exfalso.
      cbn [mem_step] in Es. unfold mem_rerun in Es.
      destruct (with_job_unpoisoned (s_mem s) id (job_rerunable p now) true (si_ok _ _ I)) as [_ Hw].
      { intros k0 Hk0 Hno. apply job_rerunable_none in Hno.
        pose proof (sinv_bounds es s I k0 Hk0). lia. }
      pose proof (with_job_spec (s_mem s) id (job_rerunable p now) true (si_ok _ _ I)) as Hsp.
      destruct (with_job (s_mem s) id (job_rerunable p now) true) as [m1 r1]. cbn in Hw.
      injection Es as <- <-. destruct Hw as [->| ->]; [cbn in H; contradiction|].
      destruct Hsp as [_ [_ Hsp]]. apply (Hsp k Hk). auto.
    - (* new job *)
      cbn in Hord. destruct Hord as [Hmax Hkeep].
      pose proof (mem_step_next p now (s_mem s) (OpEnqueue e)) as Hnext. cbn zeta in Hnext. rewrite Es in Hnext.
      cbn [fst snd] in Hnext.
      assert (Hfresh : i = wrap_i32 n0 /\ ~ drawn n0 i).
      { destruct Hnext as [[_ Hlen]|[e0 [_ [_ [[Hlen _]|[Hnew _]]]]]].
        - exfalso. rewrite <- El', <- El, app_length in Hlen. cbn in Hlen. lia.
        - exfalso. rewrite <- El', <- El in Hlen. apply (f_equal (@length kjob)) in Hlen. rewrite app_length in Hlen. cbn in Hlen. lia.
        - assert (E : i = wrap_i32 n0).
          { rewrite <- El', <- El in Hnew. apply app_inj_tail in Hnew. destruct Hnew as [_ Hnew].
            injection Hnew as Hnew _. rewrite <- (ii_next _ _ Hi0). exact Hnew. }
          split; [exact E|]. rewrite E. apply drawn_fresh. rewrite requests_snoc in Hreq. cbn in Hreq.
          pose proof (ii_n _ _ Hi0). lia. }
      destruct Hfresh as [_ Hfresh].
      assert (Hout : outcomes i s = []).
      { apply outcomes_none. intros x Hx E. apply Hfresh. rewrite <- E. apply Hd0. exact Hx. }
      assert (Hnot : forall k, In k (m_jobs (s_mem s)) -> j_id (kj_job k) <> i).
      { intros k Hk E. apply Hfresh. apply (ii_drawn _ _ Hi0). rewrite <- E.
        apply (in_map (fun k => j_id (kj_job k))). exact Hk. }
      pose proof I as [I1 I2 I3 I4 I5 I6 I7].
      split; cbn [s_mem s_held s_log]; auto; try rewrite <- El'.
      + intros h Hh. destruct (I4 h Hh) as [k [Hk F]]. exists k. split; [|exact F]. rewrite <- El in Hk.
        apply in_or_app. auto.
      + intros k Hk Hst. apply in_app_or in Hk. destruct Hk as [Hk|[<-|[]]]; [|discriminate].
        apply I5; [rewrite <- El; exact Hk | exact Hst].
      + intros k Hk. apply in_app_or in Hk. destruct Hk as [Hk|[<-|[]]].
        * apply (fine_other es (SOp now (OpEnqueue e)) s); auto. apply I6. rewrite <- El. exact Hk.
        * cbn [kj_job new_job j_id]. exists (eq_max_attempts e). split.
          -- exists es, now, e, [], s. split; [reflexivity|]. split; [exact Hrun|].
             split; [rewrite Es; reflexivity|]. split.
             ++ intros j Hj0. unfold jobs_of in Hj0. apply in_map_iff in Hj0. destruct Hj0 as [k [<- Hk]]. auto.
             ++ split; [exact Hmax|]. unfold reruns; cbn. lia.
          -- unfold results, failures.
             replace (outcomes i (mk_sys m' (s_held s) (s_log s))) with (outcomes i s) by reflexivity.
             rewrite Hout. cbn [filter length Z.of_nat]. apply fine_new. exact Hmax.
      + intro id. apply (bound_snoc es _ s); auto.
    - (* conflict *)
      cbn in Hord. destruct Hord as [Hmax Hkeep].
      assert (Hin : In k0 (m_jobs (s_mem s))) by (rewrite <- El; apply in_mid; auto).
      destruct (after_conflict_same e (kj_job k0) Hkeep) as [E0 [E1 _]].
      eapply (Hupd pre k0 post); [symmetry; exact El | symmetry; exact El' | exact E0 | intros; reflexivity | | |].
      + destruct (Hold k0 Hin) as [mx [B F]]; [discriminate|]. exists mx. split; [exact B|]. cbn [kj_job].
        apply fine_conflict; [exact Hkeep|]. eapply fine_weaken; [|exact F]. apply left_alone_app.
      + intros h _. apply Hfits. exact Hkeep.
      + cbn [kj_job]. rewrite E1. auto.
    - cbn in Hord. contradiction.
    - (* one job *)
      assert (Hin : In k0 (m_jobs (s_mem s))) by (rewrite <- El; apply in_mid; auto).
      assert (Hj0 : In (kj_job k0) (jobs_of (s_mem s))) by (unfold jobs_of; apply in_map; exact Hin).
      remember (kj_job k0) as j eqn:Ek0.
      destruct H as [id j|id t e j|id e j|id e j|id t j j' H|id j j' H|j j']; cbn in Hord; try contradiction.
      + (* cancel *)
        specialize (Hord j Hj0 H0). subst j.
        eapply (Hupd pre k0 post); [symmetry; exact El | symmetry; exact El' | reflexivity | intros; reflexivity | | |].
        * destruct (Hold k0 Hin) as [mx [B F]]; [discriminate|]. exists mx. split; [exact B|]. cbn [kj_job].
          eapply fine_weaken; [|eapply fine_cancel_waiting; [exact Hord|exact F]].
          intro Ha. specialize (Ha now (OpCancelled id e)). cbn in Ha.
          apply Ha; [apply in_or_app; right; left; reflexivity | auto].
        * intros h _ [_ [F _]]. destruct Hord; congruence.
        * cbn. discriminate.
      + (* rerun *)
        destruct (Hord j Hj0 H0) as [Hst Hmx]. subst j.
        destruct (si_fine _ _ I k0 Hin) as [mx [B F]].
        pose proof (fi_max _ _ _ _ _ F) as Fm. pose proof (fi_range _ _ _ _ _ F) as Fr.
        assert (j' = after_rerun now (kj_job k0)) as ->.
        { eapply job_rerunable_spec; [|exact H]. lia. }
        eapply (Hupd pre k0 post); [symmetry; exact El | symmetry; exact El' | reflexivity | | | |].
        * intros i Hne. cbn. destruct (Z.eqb_spec id i); [congruence|reflexivity].
        * exists (mx + 1). split.
          -- apply (born_snoc es (SOp now (OpRerun id))) in B. cbn [reruns_ev] in B.
             rewrite H0, Z.eqb_refl in B. cbn [b2z] in B. rewrite H0. exact B.
          -- cbn [kj_job]. eapply fine_weaken; [|eapply fine_rerun; [exact Hst| |exact F]].
             ++ intro Ha. specialize (Ha now (OpRerun id)). cbn in Ha.
                apply Ha; [apply in_or_app; right; left; reflexivity | auto].
             ++ lia.
        * intros h _ [_ [F' _]]. contradiction.
        * cbn. destruct (Z.eq_dec (j_attempt (kj_job k0)) 1); discriminate.
    - (* prune *)
      cbn in Hord. destruct Hord as [Hst _].
      pose proof I as [I1 I2 I3 I4 I5 I6 I7].
      split; cbn [s_mem s_held s_log]; auto; try rewrite <- El'.
      + intros h Hh. destruct (I4 h Hh) as [k [Hk F]]. exists k. split; [|exact F]. rewrite <- El in Hk.
        eapply retained_in_inv; [exact H | exact Hk|]. intros [Hsc _]. destruct F as [_ [F _]]. congruence.
      + intros k Hk Hex. apply I5; [|exact Hex]. rewrite <- El. eapply retained_in; eassumption.
      + intros k Hk. apply (fine_other es (SOp now (OpPrune ps)) s); auto. apply I6. rewrite <- El.
        eapply retained_in; eassumption.
      + intro id. apply (bound_snoc es _ s); auto.
  Qed.

  Lemma sinv_take es s now ex s' :
    sinv es s -> requests (es ++ [STake now ex]) <= 4294967296 ->
    sstep s (STake now ex) = Some s' -> sinv (es ++ [STake now ex]) s'.
  Proof.
    intros I Hreq Hs.
    pose proof (unpoisoned_op es s now (OpLoad ex) I Logic.I) as Hp.
    pose proof (sinv_ids es s (STake now ex) now (OpLoad ex) I Hreq (requests_snoc es _)) as Hn.
    destruct (si_n _ _ I) as [n0 [Hn0 [Hi0 Hd0]]].
    unfold sys_step in Hs. cbn [mem_step] in Hp, Hn.
    pose proof (mem_load_spec p now (s_mem s) ex (si_ok _ _ I)) as Hl.
    destruct (mem_load p now (s_mem s) ex) as [m' [[j|]|er|]] eqn:E; cbn [fst] in Hp, Hn.
    - injection Hs as <-. destruct Hl as [pre [k [post [El [Hdue [Hx [Hm' _]]]]]]].
      assert (Hin : In k (m_jobs (s_mem s))) by (rewrite El; apply in_mid; auto).
      destruct (si_fine _ _ I k Hin) as [mx [B F]]. pose proof (sinv_bounds es s I k Hin) as Hb.
      assert (j = after_hand_out now (kj_job k)) as ->.
      { eapply job_executing_ok; [|exact Hx]. lia. }
      assert (Hw : waiting (kj_job k)) by (destruct Hdue as [_ [Hw _]]; exact Hw).
      assert (Hno : forall h, In h (s_held s) -> h_id h <> j_id (kj_job k)).
      { intros h Hh Eh. destruct (si_held _ _ I h Hh) as [k0 [Hk0 Fi]].
        assert (k0 = k) as ->.
        { apply (nodup_map_eq (fun k => j_id (kj_job k)) (m_jobs (s_mem s))); auto.
          - exact (ii_nodup _ _ Hi0).
          - destruct Fi as [Fi _]. congruence. }
        destruct Fi as [_ [Fi _]]. destruct Hw; congruence. }
      eapply (sinv_update es s _ _ pre k post (mk_kjob (after_hand_out now (kj_job k)) (kj_key k)));
        cbn [s_mem s_held s_log]; auto.
      + rewrite Hm'. reflexivity.
      + exists mx. split.
        * apply (born_snoc es (STake now ex)) in B. cbn [reruns_ev] in B. rewrite Z.add_0_r in B. exact B.
        * cbn [kj_job]. apply fine_hand_out; [exact Hw|]. eapply fine_weaken; [|exact F]. apply left_alone_app.
      + rewrite map_app. cbn [map]. apply nodup_snoc; [exact (si_nodup _ _ I)|].
        intro Hi. apply in_map_iff in Hi. destruct Hi as [h [Eh Hh]]. cbn in Eh. exact (Hno h Hh Eh).
      + intros h Hh Ne. apply in_app_or in Hh. destruct Hh as [Hh|[<-|[]]]; [exact Hh|]. destruct Ne. reflexivity.
      + intros h Hh _. apply in_or_app. auto.
      + intros h Hh Eh. apply in_app_or in Hh. destruct Hh as [Hh|[<-|[]]]; [destruct (Hno h Hh Eh)|].
        unfold fits, h_id. cbn [kj_job h_job h_exec]. split; [reflexivity|]. split; [reflexivity|].
        split; [reflexivity|]. split; [reflexivity|]. intros x Hxx.
        destruct (begin_job c fns (after_hand_out now (kj_job k))) as [x0| |] eqn:Eb; try discriminate.
        injection Hxx as <-. destruct (begin_spawned c fns show _ _ Eb) as [t [_ [_ [_ [H1 [H2 _]]]]]]. auto.
      + intros _. eexists. split; [apply in_or_app; right; left; reflexivity|]. reflexivity.
    - injection Hs as <-. destruct Hl as [-> _]. apply sinv_same; auto.
    - destruct Hl.
    - injection Hs as <-. destruct Hl as [-> _]. apply sinv_same; auto.
  Qed.

  (** What a report does to the job. *)
  Lemma report_fine now1 now2 now x o op r f alone mx (j : job) j' :
    report show now1 now2 x o = Some op -> x_final x = (j_attempt j =? j_max_attempts j) -> x_id x = j_id j ->
    j_status j = Executing -> fine r f alone mx j -> one_effect p now op (j_id j) j j' ->
    fine (r + b2z (negb (is_snooze o))) (f + b2z (is_failure o)) alone mx j'
    /\ j_status j' <> Executing /\ j_id j' = j_id j.
  Proof.
    intros Hr Hf Hid Hst F He.
    pose proof (fi_range _ _ _ _ _ F) as Fr. pose proof (fi_big _ _ _ _ _ F) as Fb.
    assert (Herr : forall e, report_error now1 now2 x e = Some op -> is_snooze o = false -> is_failure o = true ->
      fine (r + b2z (negb (is_snooze o))) (f + b2z (is_failure o)) alone mx j'
      /\ j_status j' <> Executing /\ j_id j' = j_id j).
    { intros e Hre -> ->. cbn [negb b2z]. unfold report_error in Hre. rewrite Hf in Hre.
      destruct (Z.eqb_spec (j_attempt j) (j_max_attempts j)) as [Heq|Hne].
      - injection Hre as <-. inversion He; subst. split; [apply fine_discarded; assumption|]. split; [discriminate|cbn; congruence].
      - destruct (dt_add now1 (x_delay x)); [|discriminate]. destruct (dt_add now2 (x_delay x)); [|discriminate].
        injection Hre as <-. inversion He; subst. split; [apply fine_retryable; assumption|]. split; [discriminate|cbn; congruence]. }
    destruct o as [|reason|d|e| |pl text|text]; cbn [report] in Hr.
    - injection Hr as <-. inversion He; subst. cbn [is_snooze is_failure negb b2z]. rewrite Z.add_0_r.
      split; [apply fine_complete; assumption|]. split; [discriminate|cbn; congruence].
    - destruct reason as [reason|]; [|discriminate]. injection Hr as <-. inversion He; subst.
      cbn [is_snooze is_failure negb b2z]. rewrite Z.add_0_r.
      split; [apply fine_cancelled; assumption|]. split; [discriminate|cbn; congruence].
    - destruct (dt_add now1 d); [|discriminate]. injection Hr as <-. inversion He as [| | | |? ? ? ? Hj| |]; subst.
      apply job_snoozed_spec in Hj; [|lia]. subst j'. cbn [is_snooze is_failure negb b2z]. rewrite !Z.add_0_r.
      split; [apply fine_snoozed; assumption|]. split; [cbn; destruct (Z.eq_dec (j_attempt j) 1); discriminate|cbn; congruence].
    - destruct e as [e|]; [|discriminate]. eapply Herr; [exact Hr|reflexivity|reflexivity].
    - destruct (x_timeout x); [|discriminate]. eapply Herr; [exact Hr|reflexivity|reflexivity].
    - eapply Herr; [exact Hr|reflexivity|reflexivity].
    - eapply Herr; [exact Hr|reflexivity|reflexivity].
  Qed.

  Lemma report_op now1 now2 x o op : report show now1 now2 x o = Some op ->
    weight op = 0 /\ (forall now, age_fits now op)
    /\ (op = OpComplete (x_id x) \/ (exists t e, op = OpRetryable (x_id x) t e) \/ (exists e, op = OpDiscarded (x_id x) e)
        \/ (exists e, op = OpCancelled (x_id x) e) \/ (exists t, op = OpSnoozed (x_id x) t)).
  Proof.
    assert (Herr : forall e, report_error now1 now2 x e = Some op ->
      weight op = 0 /\ (forall now, age_fits now op)
      /\ (op = OpComplete (x_id x) \/ (exists t e, op = OpRetryable (x_id x) t e) \/ (exists e, op = OpDiscarded (x_id x) e)
        \/ (exists e, op = OpCancelled (x_id x) e) \/ (exists t, op = OpSnoozed (x_id x) t))).
    { intros e H. unfold report_error in H. destruct (x_final x).
      - injection H as <-. cbn. eauto 10.
      - destruct (dt_add now1 (x_delay x)); [|discriminate]. destruct (dt_add now2 (x_delay x)); [|discriminate].
        injection H as <-. cbn. eauto 10. }
    destruct o as [|reason|d|e| |pl text|text]; cbn [report]; intro H.
    - injection H as <-. cbn. auto.
    - destruct reason; [|discriminate]. injection H as <-. cbn. eauto 10.
    - destruct (dt_add now1 d); [|discriminate]. injection H as <-. cbn. eauto 10.
    - destruct e; [eauto|discriminate].
    - destruct (x_timeout x); [eauto|discriminate].
    - eauto.
    - eauto.
  Qed.

  Lemma sinv_report es s now1 now2 now i o s' :
    sinv es s -> requests (es ++ [SReport now1 now2 now i o]) <= 4294967296 ->
    sstep s (SReport now1 now2 now i o) = Some s' -> sinv (es ++ [SReport now1 now2 now i o]) s'.
  Proof.
    intros I Hreq Hs. unfold sys_step in Hs.
    destruct (nth_error (s_held s) i) as [[hj [x|]]|] eqn:En; try discriminate.
    destruct (report show now1 now2 x o) as [op|] eqn:Er; [|discriminate]. injection Hs as <-.
    destruct (report_op _ _ _ _ _ Er) as [Hw [Hage Hop]].
    pose proof (unpoisoned_op es s now op I (Hage now)) as Hp.
    assert (Hreq' : requests (es ++ [SReport now1 now2 now i o]) = requests es + weight op).
    { rewrite requests_snoc, Hw. reflexivity. }
    pose proof (sinv_ids es s _ now op I Hreq Hreq') as Hn.
    destruct (si_n _ _ I) as [n0 [Hn0 [Hi0 Hd0]]].
    set (h0 := mk_holding hj (Some x)) in *.
    assert (Hh0 : In h0 (s_held s)) by (eapply nth_error_In; exact En).
    destruct (drop_nth_split i (s_held s) h0 En) as [l1 [l2 [Eh Ed]]].
    destruct (si_held _ _ I h0 Hh0) as [k [Hk [F1 [F2 [F3 [F4 F5]]]]]].
    destruct (F5 x eq_refl) as [X1 X2]. cbn [h_job h0] in F3, F4, X2.
    assert (Xid : x_id x = j_id (kj_job k)) by congruence.
    destruct (si_fine _ _ I k Hk) as [mx [B F]].
    (* the operation finds the job *)
    pose proof (mem_step_jstep p now (s_mem s) op (ii_nodup _ _ Hi0)) as Hj.
    assert (Hres : snd (mem_step p now (s_mem s) op) = RUnit (Ok tt)).
    { assert (Hwj : forall f nt, (forall k, In k (m_jobs (s_mem s)) -> f (kj_job k) <> None) ->
        snd (let (m', r) := with_job (s_mem s) (x_id x) f nt in (m', RUnit r)) = RUnit (Ok tt)).
      { intros f nt Hf. destruct (with_job_unpoisoned (s_mem s) (x_id x) f nt (si_ok _ _ I) Hf) as [_ Hr].
        pose proof (with_job_spec (s_mem s) (x_id x) f nt (si_ok _ _ I)) as Hsp.
        destruct (with_job (s_mem s) (x_id x) f nt) as [m1 r1]. cbn in Hr. destruct Hr as [->| ->]; [reflexivity|].
        destruct Hsp as [_ [_ Hsp]]. destruct (Hsp k Hk). auto. }
      destruct Hop as [->|[[t [e ->]]|[[e ->]|[[e ->]|[t ->]]]]]; cbn [mem_step]; apply Hwj; try discriminate.
      intros k0 Hk0 Hno. apply job_snoozed_none in Hno. pose proof (sinv_bounds es s I k0 Hk0). lia. }
    destruct (mem_step p now (s_mem s) op) as [m' r]. cbn [fst snd] in *. subst r.
    remember (m_jobs (s_mem s)) as l eqn:El. remember (m_jobs m') as l' eqn:El'.
    assert (Hone : exists pre k1 post j', m_jobs (s_mem s) = pre ++ k1 :: post /\ m_jobs m' = pre ++ mk_kjob j' (kj_key k1) :: post
               /\ one_effect p now op (x_id x) (kj_job k1) j' /\ j_id (kj_job k1) = x_id x).
    { remember (RUnit (Ok tt)) as r eqn:Err.
      destruct Hj as [o1 r l H|e i0 l H|e pre k0 post H H0|ex pre k0 post j' H H0|o1 i0 pre k0 post j' H H0 H1|ps l l' H];
        try discriminate.
      - exfalso. subst r. destruct Hop as [->|[[t [e ->]]|[[e ->]|[[e ->]|[t ->]]]]]; cbn in H; contradiction.
      - exists pre, k0, post, j'. split; [congruence|]. split; [congruence|].
        assert (Ei0 : i0 = x_id x).
        { destruct Hop as [->|[[t [e ->]]|[[e ->]|[[e ->]|[t ->]]]]]; inversion H; congruence. }
        rewrite <- Ei0. auto.
      - exfalso. destruct Hop as [Ho|[[t [e Ho]]|[[e Ho]|[[e Ho]|[t Ho]]]]]; discriminate. }
    destruct Hone as [pre [k1 [post [j' [E1 [E2 [He Hk1]]]]]]].
    assert (k1 = k).
    { apply (nodup_map_eq (fun k => j_id (kj_job k)) (m_jobs (s_mem s))).
      - exact (ii_nodup _ _ Hi0).
      - rewrite E1. apply in_mid. auto.
      - rewrite <- El. exact Hk.
      - congruence. }
    subst k1. rewrite Xid in He.
    destruct (report_fine now1 now2 now x o op (results (j_id (kj_job k)) s) (failures (j_id (kj_job k)) s)
      (left_alone (j_id (kj_job k)) es) mx (kj_job k) j' Er) as [Ff [Fs Fi]]; auto.
    { rewrite X2, F3, F4. reflexivity. }
    assert (Hneq : forall h, In h (l1 ++ l2) -> h_id h <> j_id (kj_job k)).
    { intros h Hh E. pose proof (si_nodup _ _ I) as Hnd. rewrite Eh in Hnd.
      apply in_app_or in Hh.
      apply (nodup_other h_id l1 h0 l2 h Hnd Hh). congruence. }
    eapply (sinv_update es s _ _ pre k post (mk_kjob j' (kj_key k))); cbn [s_mem s_held s_log]; auto.
    - destruct Hn as [n [Hn1 [Hn2 Hn3]]]. exists n. split; [exact Hn1|]. split; [exact Hn2|].
      intros y [<-|Hy]; [|auto]. cbn [fst]. apply (ii_drawn _ _ Hn2). rewrite E2, Xid, <- Fi.
      unfold ids. rewrite map_app. apply in_or_app. right. left. reflexivity.
    - intros i0 Hi1. rewrite results_cons, failures_cons.
      destruct (Z.eqb_spec (x_id x) i0); [congruence|]. cbn [andb b2z reruns_ev]. split; [lia|]. split; [lia|reflexivity].
    - exists mx. split.
      + apply (born_snoc es (SReport now1 now2 now i o)) in B. cbn [reruns_ev] in B. rewrite Z.add_0_r in B. exact B.
      + rewrite results_cons, failures_cons, Xid, Z.eqb_refl. cbn [andb kj_job].
        eapply fine_weaken; [|exact Ff]. apply left_alone_app.
    - rewrite Ed. pose proof (si_nodup _ _ I) as Hnd. rewrite Eh, map_app in Hnd. cbn [map] in Hnd.
      apply NoDup_remove_1 in Hnd. rewrite map_app. exact Hnd.
    - intros h Hh _. eapply drop_nth_in; exact Hh.
    - intros h Hh Ne. rewrite Ed. rewrite Eh in Hh. apply in_app_or in Hh. apply in_or_app.
      destruct Hh as [Hh|[<-|Hh]]; [auto| |auto]. destruct Ne. congruence.
    - intros h Hh E. rewrite Ed in Hh. destruct (Hneq h Hh E).
    - cbn [kj_job]. intro E. contradiction.
  Qed.

  Lemma orun_snoc s es s1 ev s' : orun s es s1 -> orderly s1 ev -> sstep s1 ev = Some s' -> orun s (es ++ [ev]) s'.
  Proof.
    intro H. induction H as [s|s ev0 s0 es s1 Ho Hs H IH]; intros Ho' Hs'; cbn.
    - econstructor; [exact Ho'|exact Hs'|constructor].
    - econstructor; [exact Ho|exact Hs|auto].
  Qed.

  Lemma requests_app es es' : requests (es ++ es') = requests es + requests es'.
  Proof. unfold requests. rewrite filter_app, app_length. lia. Qed.

  Lemma sinv_run es2 : forall es1 s1 s,
    orun sys_init es1 s1 -> sinv es1 s1 -> orun s1 es2 s -> requests (es1 ++ es2) <= 4294967296 ->
    sinv (es1 ++ es2) s.
  Proof.
    induction es2 as [|ev es2 IH]; intros es1 s1 s H1 I H2 Hr.
    - inversion H2; subst. rewrite app_nil_r. exact I.
    - inversion H2 as [|? ? s2 ? ? Ho Hs H3]; subst.
      replace (es1 ++ ev :: es2) with ((es1 ++ [ev]) ++ es2) in * by (rewrite <- app_assoc; reflexivity).
      assert (Hr1 : requests (es1 ++ [ev]) <= 4294967296).
      { rewrite requests_app in Hr. assert (0 <= requests es2) by (unfold requests; lia). lia. }
      eapply IH; [eapply orun_snoc; eassumption | | exact H3 | exact Hr].
      destruct ev as [now o|now ex|now1 now2 now i o].
      + eapply sinv_op; eassumption.
      + eapply sinv_take; eassumption.
      + eapply sinv_report; eassumption.
  Qed.

  Lemma run_sinv es s : orun sys_init es s -> requests es <= 4294967296 -> sinv es s.
  Proof.
    intros H Hr. apply (sinv_run es [] sys_init s (or_nil _ _ _ _ _) sinv_init H Hr).
  Qed.
End S.
