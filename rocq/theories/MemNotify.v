(** Lemmas about the wake-up messages of the in-memory backend and about paused mode. *)
From Verif Require Import Base Chrono Types TypesProofs Query Memory MemSpec QueryProofs MemProofs MemHist MemHist2.

(** Same jobs, counter and health; subscriptions and paused flag may differ. *)
Definition same_store (m1 m2 : mem) : Prop :=
  m_jobs m1 = m_jobs m2 /\ m_next_id m1 = m_next_id m2 /\ m_poisoned m1 = m_poisoned m2.

Lemma same_store_refl m : same_store m m.
Proof. repeat split. Qed.

Lemma notify_same ex t m : same_store (notify_subscribers ex t m) m.
Proof. unfold notify_subscribers. destruct (m_paused m) eqn:E; repeat split. Qed.

Lemma same_store_trans a b c : same_store a b -> same_store b c -> same_store a c.
Proof. unfold same_store. intuition congruence. Qed.
Lemma same_store_sym a b : same_store a b -> same_store b a.
Proof. unfold same_store. intuition congruence. Qed.

Lemma notify_same2 ex t m1 m2 ex' t' :
  same_store m1 m2 -> same_store (notify_subscribers ex t m1) (notify_subscribers ex' t' m2).
Proof.
  intro H. eapply same_store_trans; [apply notify_same|].
  eapply same_store_trans; [exact H|]. apply same_store_sym, notify_same.
Qed.

Lemma with_job_same m1 m2 id f nt :
  same_store m1 m2 ->
  same_store (fst (with_job m1 id f nt)) (fst (with_job m2 id f nt))
  /\ snd (with_job m1 id f nt) = snd (with_job m2 id f nt).
Proof.
  intro H. pose proof H as [H1 [H2 H3]]. unfold with_job. rewrite H3, H1.
  destruct (m_poisoned m2) eqn:Ep; [cbn; auto|].
  destruct (split_first _ _) as [[[pre k] post]|]; [|cbn; auto].
  destruct (f (kj_job k)) as [j'|]; [|cbn; split; [|reflexivity]; repeat split; cbn; congruence].
  destruct nt; cbn [fst snd]; split; auto.
  - apply notify_same2. repeat split; cbn; congruence.
  - repeat split; cbn; congruence.
Qed.

Lemma insert_new_same now m1 m2 e :
  same_store m1 m2 ->
  same_store (fst (insert_new_job now m1 e)) (fst (insert_new_job now m2 e))
  /\ snd (insert_new_job now m1 e) = snd (insert_new_job now m2 e).
Proof.
  intros [H1 [H2 H3]]. unfold insert_new_job. cbn [m_poisoned]. rewrite H3.
  destruct (m_poisoned m2) eqn:Ep; cbn [fst snd].
  - split; [|congruence]. repeat split; cbn; congruence.
  - rewrite H2. split; [|reflexivity]. apply notify_same2. repeat split; cbn; congruence.
Qed.

Lemma mem_step_same p now m1 m2 o :
  same_store m1 m2 ->
  same_store (fst (mem_step p now m1 o)) (fst (mem_step p now m2 o))
  /\ snd (mem_step p now m1 o) = snd (mem_step p now m2 o).
Proof.
  intro H. pose proof H as [H1 [H2 H3]].
  assert (Hw : forall id f nt,
     same_store (fst (let (m', r) := with_job m1 id f nt in (m', RUnit r)))
                (fst (let (m', r) := with_job m2 id f nt in (m', RUnit r)))
     /\ snd (let (m', r) := with_job m1 id f nt in (m', RUnit r))
        = snd (let (m', r) := with_job m2 id f nt in (m', RUnit r))).
  { intros id f nt. destruct (with_job_same m1 m2 id f nt H) as [Ha Hb].
    destruct (with_job m1 id f nt), (with_job m2 id f nt). cbn in *. split; congruence. }
  destruct o as [e|ex|id|id t er|id er|id er|id t|ps|id|j|q|ex| |]; cbn [mem_step]; try apply Hw.
  - assert (Hins : same_store (fst (let (m', r) := insert_new_job now m1 e in (m', RId r)))
                              (fst (let (m', r) := insert_new_job now m2 e in (m', RId r)))
       /\ snd (let (m', r) := insert_new_job now m1 e in (m', RId r))
          = snd (let (m', r) := insert_new_job now m2 e in (m', RId r))).
    { destruct (insert_new_same now m1 m2 e H) as [Ha Hb].
      destruct (insert_new_job now m1 e), (insert_new_job now m2 e). cbn in *. split; congruence. }
    unfold mem_enqueue. destruct (eq_criteria e) as [uq|]; [|exact Hins].
    unfold insert_unique_job, matching_jobs. rewrite H3, H1.
    destruct (m_poisoned m2) eqn:Ep; [cbn; split; [exact H|reflexivity]|].
    destruct (filter _ _) as [|k rest]; [exact Hins|]. unfold mem_update.
    destruct (with_job_same m1 m2 (j_id (job_replace e (kj_job k))) (fun _ => Some (job_replace e (kj_job k))) true H) as [Ha Hb].
    destruct (with_job m1 _ _ true) as [x1 r1], (with_job m2 _ _ true) as [x2 r2]. cbn in *. subst r1.
    destruct r2; cbn; auto.
  - unfold mem_load. rewrite H3, H1. destruct (m_poisoned m2) eqn:Ep; [cbn; auto|].
    destruct (stable_sort _ _) as [|[i k] rest]; [cbn; auto|].
    destruct (job_executing p now (kj_job k)); cbn; split; auto; repeat split; cbn; congruence.
  - unfold mem_prune. rewrite H3, H1. destruct (m_poisoned m2) eqn:Ep; [cbn; auto|].
    destruct (ps_by ps) as [d|n].
    + destruct (dt_sub now d), (dt_add now d); cbn; split; auto; repeat split; cbn; congruence.
    + cbn; split; auto; repeat split; cbn; congruence.
  - cbn. split; [exact H|]. unfold mem_query, matching_jobs. rewrite H3, H1. reflexivity.
  - cbn. split; [|reflexivity]. repeat split; cbn; congruence.
  - cbn. split; [|reflexivity]. repeat split; cbn; congruence.
  - cbn. split; [|reflexivity]. repeat split; cbn; congruence.
Qed.

Lemma mem_run_same p h : forall m1 m2,
  same_store m1 m2 ->
  same_store (mem_run p m1 h) (mem_run p m2 h) /\ mem_trace p m1 h = mem_trace p m2 h.
Proof.
  induction h as [|[now o] h IH]; intros m1 m2 H; cbn [mem_run mem_trace]; [auto|].
  destruct (mem_step_same p now m1 m2 o H) as [H1 H2].
  destruct (mem_step p now m1 o) as [x1 r1], (mem_step p now m2 o) as [x2 r2]. cbn [fst snd] in *.
  subst r1. destruct (IH x1 x2 H1) as [H3 H4]. split; [exact H3 | congruence].
Qed.

(** * Messages *)

Lemma set_jobs_inboxes l m : inboxes (set_jobs l m) = inboxes m.
Proof. reflexivity. Qed.

Lemma notify_inboxes_set ex t l m :
  inboxes (notify_subscribers ex t (set_jobs l m)) = inboxes (notify_subscribers ex t m).
Proof. unfold notify_subscribers, inboxes. cbn. destruct (m_paused m); reflexivity. Qed.

Lemma with_job_inboxes m id f nt :
  m_poisoned m = false ->
  match with_job m id f nt with
  | (m', Ok _) =>
      if nt then
        exists j', In j' (jobs_of m') /\ (exists j, In j (jobs_of m) /\ j_id j = id /\ f j = Some j')
          /\ inboxes m' = inboxes (notify_subscribers (j_executor j') (j_scheduled_at j') m)
      else inboxes m' = inboxes m
  | (m', _) => inboxes m' = inboxes m
  end.
Proof.
  intro Hp. pose proof (with_job_spec m id f nt Hp) as H.
  destruct (with_job m id f nt) as [m' [u|e|]].
  - destruct H as [pre [k [post [j' [H1 [H2 [H3 [H4 ->]]]]]]]]. destruct nt; cbn zeta; [|reflexivity].
    exists j'. unfold jobs_of. rewrite notify_jobs. split.
    + cbn [set_jobs m_jobs]. rewrite map_app. apply in_or_app. right. left. reflexivity.
    + split; [|apply notify_inboxes_set]. exists (kj_job k). repeat split; auto.
      apply in_map. rewrite H1. apply in_mid. auto.
  - destruct H as [-> _]. reflexivity.
  - destruct H as [-> _]. reflexivity.
Qed.

(** What the subscriptions receive from one operation on a backend that is not paused. *)
Definition messages_of (now : time) (o : mop) (r : mres) (m' : mem)
  (before after : list (string * list time)) : Prop :=
  match o, r with
  | OpEnqueue _, RId (Ok id) =>
      exists j, In j (jobs_of m') /\ j_id j = id
        /\ delivered (j_executor j) (j_scheduled_at j) before after
  | (OpRetryable id _ _ | OpSnoozed id _ | OpRerun id), RUnit (Ok _) =>
      exists j, In j (jobs_of m') /\ j_id j = id
        /\ delivered (j_executor j) (j_scheduled_at j) before after
  | OpUpdate j0, RUnit (Ok _) =>
      exists j, In j (jobs_of m') /\ j_id j = j_id j0
        /\ delivered (j_executor j) (j_scheduled_at j) before after
  | OpNotifyAll, _ =>
      Forall2 (fun b a => fst a = fst b /\ snd a = snd b ++ [now]) before after
  | OpSubscribe ex, _ => after = before ++ [(ex, [])]
  | _, _ => after = before
  end.

Lemma mem_step_messages p now m o :
  m_poisoned m = false -> m_paused m = false ->
  let (m', r) := mem_step p now m o in
  messages_of now o r m' (inboxes m) (inboxes m').
Proof.
  intros Hp Hpa.
  assert (Hw : forall id f (nt : bool) o',
     (forall j j', f j = Some j' -> j_id j = id -> j_id j' = id) ->
     (forall r m' b a, (match r with Ok _ => False | _ => True end) -> a = b ->
         messages_of now o' (RUnit r) m' b a) ->
     (forall m' b a, (if nt then exists j', In j' (jobs_of m') /\ j_id j' = id
                        /\ delivered (j_executor j') (j_scheduled_at j') b a else a = b) ->
         messages_of now o' (RUnit (Ok tt)) m' b a) ->
     let (m', r) := (let (m', r) := with_job m id f nt in (m', RUnit r)) in
     messages_of now o' r m' (inboxes m) (inboxes m')).
  { intros id f nt o' Hid Hbad Hgood. pose proof (with_job_inboxes m id f nt Hp) as H.
    destruct (with_job m id f nt) as [m' [[]|e|]].
    - apply Hgood. destruct nt; [|exact H]. destruct H as [j' [H1 [[j [Hj [H2 H3]]] H4]]].
      exists j'. split; [exact H1|]. split; [eauto|]. rewrite H4. apply notify_inboxes. exact Hpa.
    - apply Hbad; [exact I | exact H].
    - apply Hbad; [exact I | exact H]. }
  destruct o as [e|ex|id|id t er|id er|id er|id t|ps|id|j|q|ex| |]; cbn [mem_step].
  - assert (Hins : let (m', r) := insert_new_job now m e in
                   messages_of now (OpEnqueue e) (RId r) m' (inboxes m) (inboxes m')).
    { destruct (insert_new_job_ok now m e Hp) as [m' [-> [Hj [_ [_ [_ Hb]]]]]]. cbn.
      exists (new_job now (m_next_id m) e). unfold jobs_of. rewrite Hj, map_app. split.
      - apply in_or_app. right. left. reflexivity.
      - split; [reflexivity|]. rewrite Hb. apply notify_inboxes. exact Hpa. }
    unfold mem_enqueue. destruct (eq_criteria e) as [uq|].
    + unfold insert_unique_job, matching_jobs. rewrite Hp.
      destruct (filter _ _) as [|k rest].
      * destruct (insert_new_job now m e). exact Hins.
      * unfold mem_update.
        pose proof (with_job_inboxes m (j_id (job_replace e (kj_job k))) (fun _ => Some (job_replace e (kj_job k))) true Hp) as H.
        destruct (with_job m _ _ true) as [m' [u|err|]]; [|exact H|exact H].
        destruct H as [j' [H1 [[j [Hj [H2 H3]]] H4]]]. injection H3 as <-. cbn.
        exists (job_replace e (kj_job k)). split; [exact H1|]. split; [reflexivity|].
        rewrite H4. apply notify_inboxes. exact Hpa.
    + destruct (insert_new_job now m e). exact Hins.
  - pose proof (mem_load_spec p now m ex Hp) as H.
    destruct (mem_load p now m ex) as [m' [[j'|]|err|]]; cbn.
    + destruct H as [pre [k [post [_ [_ [_ [-> _]]]]]]]. reflexivity.
    + destruct H as [-> _]. reflexivity.
    + destruct H.
    + destruct H as [-> _]. reflexivity.
  - apply (Hw id _ false (OpComplete id)); cbn; auto.
    intros j j' Hj <-. injection Hj as <-. reflexivity.
  - apply (Hw id _ true (OpRetryable id t er)); cbn; auto.
    + intros j j' Hj <-. injection Hj as <-. reflexivity.
    + intros [u|x|] m' b a Hr ->; [destruct Hr|reflexivity|reflexivity].
  - apply (Hw id _ false (OpDiscarded id er)); cbn; auto.
    intros j j' Hj <-. injection Hj as <-. reflexivity.
  - apply (Hw id _ false (OpCancelled id er)); cbn; auto.
    intros j j' Hj <-. injection Hj as <-. reflexivity.
  - apply (Hw id _ true (OpSnoozed id t)); cbn; auto.
    + intros j j' Hj <-. unfold job_snoozed in Hj. destruct (i32_arith p _); [|discriminate].
      injection Hj as <-. reflexivity.
    + intros [u|x|] m' b a Hr ->; [destruct Hr|reflexivity|reflexivity].
  - unfold mem_prune. rewrite Hp. destruct (ps_by ps) as [d|n]; [|reflexivity].
    destruct (dt_sub now d), (dt_add now d); reflexivity.
  - apply (Hw id _ true (OpRerun id)); cbn; auto.
    + intros j j' Hj <-. unfold job_rerunable in Hj. destruct (i32_arith p _); [|discriminate].
      injection Hj as <-. reflexivity.
    + intros [u|x|] m' b a Hr ->; [destruct Hr|reflexivity|reflexivity].
  - apply (Hw (j_id j) _ true (OpUpdate j)); cbn; auto.
    + intros j1 j2 Hj _. injection Hj as <-. reflexivity.
    + intros [u|x|] m' b a Hr ->; [destruct Hr|reflexivity|reflexivity].
  - reflexivity.
  - cbn. unfold inboxes. cbn. rewrite map_app. reflexivity.
  - cbn. unfold inboxes, mem_notify_all. cbn. rewrite map_map.
    induction (m_subs m) as [|s l IH]; cbn; constructor; auto.
  - reflexivity.
Qed.

Lemma with_job_inboxes_paused m id f nt :
  m_paused m = true ->
  inboxes (fst (with_job m id f nt)) = inboxes m /\ m_paused (fst (with_job m id f nt)) = true.
Proof.
  intro Hpa. unfold with_job. destruct (m_poisoned m); [auto|].
  destruct (split_first _ _) as [[[pre k] post]|]; [|auto].
  destruct (f (kj_job k)) as [j'|]; [|auto]. destruct nt; cbn [fst]; [|auto].
  rewrite notify_paused_inboxes by exact Hpa. auto.
Qed.

Lemma mem_step_paused p now m o :
  m_paused m = true ->
  let m' := fst (mem_step p now m o) in
  m_paused m' = true
  /\ match o with
     | OpNotifyAll =>
         Forall2 (fun b a => fst a = fst b /\ snd a = snd b ++ [now]) (inboxes m) (inboxes m')
     | OpSubscribe ex => inboxes m' = inboxes m ++ [(ex, [])]
     | _ => inboxes m' = inboxes m
     end.
Proof.
  intro Hpa. cbn zeta.
  assert (Hw : forall id f nt,
    m_paused (fst (let (m', r) := with_job m id f nt in (m', RUnit r))) = true
    /\ inboxes (fst (let (m', r) := with_job m id f nt in (m', RUnit r))) = inboxes m).
  { intros id f nt. destruct (with_job_inboxes_paused m id f nt Hpa) as [H1 H2].
    destruct (with_job m id f nt). auto. }
  destruct o as [e|ex|id|id t er|id er|id er|id t|ps|id|j|q|ex| |]; cbn [mem_step]; try apply Hw.
  - assert (Hins : m_paused (fst (let (m', r) := insert_new_job now m e in (m', RId r))) = true
       /\ inboxes (fst (let (m', r) := insert_new_job now m e in (m', RId r))) = inboxes m).
    { unfold insert_new_job. cbn [m_poisoned]. destruct (m_poisoned m); [auto|]. cbn [fst].
      rewrite notify_paused_inboxes by exact Hpa. auto. }
    unfold mem_enqueue. destruct (eq_criteria e) as [uq|]; [|exact Hins].
    unfold insert_unique_job, matching_jobs. destruct (m_poisoned m); [auto|].
    destruct (filter _ _) as [|k rest]; [exact Hins|]. unfold mem_update.
    destruct (with_job_inboxes_paused m (j_id (job_replace e (kj_job k))) (fun _ => Some (job_replace e (kj_job k))) true Hpa) as [H1 H2].
    destruct (with_job m _ _ true) as [m' [u|err|]]; auto.
  - unfold mem_load. destruct (m_poisoned m); [auto|].
    destruct (stable_sort _ _) as [|[i k] rest]; [auto|].
    destruct (job_executing p now (kj_job k)); auto.
  - unfold mem_prune. destruct (m_poisoned m); [auto|]. destruct (ps_by ps) as [d|n]; [|auto].
    destruct (dt_sub now d), (dt_add now d); auto.
  - auto.
  - cbn. split; [exact Hpa|]. unfold inboxes. cbn. rewrite map_app. reflexivity.
  - cbn. split; [exact Hpa|]. unfold inboxes, mem_notify_all. cbn. rewrite map_map.
    induction (m_subs m) as [|s l IH]; cbn; constructor; auto.
  - cbn. auto.
Qed.
