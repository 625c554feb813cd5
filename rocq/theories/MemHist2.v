(** More lemmas about histories of the in-memory backend: what is kept, what is never handed out
    again, what gets handed out eventually, and when the backend keeps working. *)
From Verif Require Import Base Chrono Types TypesProofs Query Memory MemSpec QueryProofs MemProofs MemHist.

Lemma mem_run_app p h1 : forall m h2, mem_run p m (h1 ++ h2) = mem_run p (mem_run p m h1) h2.
Proof. induction h1 as [|[now o] h1 IH]; intros m h2; cbn; auto. Qed.

Lemma mem_trace_app p h1 : forall m h2,
  mem_trace p m (h1 ++ h2) = mem_trace p m h1 ++ mem_trace p (mem_run p m h1) h2.
Proof.
  induction h1 as [|[now o] h1 IH]; intros m h2; cbn; [reflexivity|].
  destruct (mem_step p now m o) as [m' r] eqn:E. cbn. rewrite IH. reflexivity.
Qed.

Lemma reached_app p h1 h2 m :
  reached p (h1 ++ h2) m -> reached p h1 (mem_run p mem_init h1) /\ m = mem_run p (mem_run p mem_init h1) h2.
Proof.
  intros [-> H]. split.
  - split; [reflexivity|]. unfold enqueues in *. rewrite filter_app, app_length in H. lia.
  - apply mem_run_app.
Qed.

(** * Jobs stay until pruned (C03) *)

Lemma ids_in l k : In k l -> In (j_id (kj_job k)) (ids l).
Proof. apply (in_map (fun k => j_id (kj_job k))). Qed.

Lemma ids_in_inv l id : In id (ids l) -> exists k, In k l /\ j_id (kj_job k) = id.
Proof. unfold ids. rewrite in_map_iff. intros [k [H1 H2]]. exists k. auto. Qed.

Lemma jstep_keeps p now o r l l' k :
  jstep p now o r l l' -> In k l ->
  In (j_id (kj_job k)) (ids l')
  \/ (exists ps, o = OpPrune ps /\ r = RUnit (Ok tt) /\ in_scope ps (kj_job k)).
Proof.
  intros Hj Hk.
  destruct Hj as [o r l H|e id l H|e pre k0 post H H0|ex pre k0 post j' H H0|o id pre k0 post j' H H0 H1|ps l l' H].
  - left. apply ids_in. exact Hk.
  - left. unfold ids. rewrite map_app. apply in_or_app. left.
    apply (in_map (fun k => j_id (kj_job k))). exact Hk.
  - left. rewrite (ids_replace _ k0); [apply ids_in; exact Hk | apply after_conflict_id].
  - left. rewrite (ids_replace _ k0); [apply ids_in; exact Hk | eapply job_executing_id; eassumption].
  - left. rewrite (ids_replace _ k0); [apply ids_in; exact Hk|].
    rewrite H0. eapply one_effect_id; eassumption.
  - destruct (prune_matches ps (kj_job k)) eqn:E.
    + right. exists ps. rewrite in_scope_spec in E. auto.
    + left. apply ids_in. eapply retained_in_inv; [exact H|exact Hk|].
      rewrite <- in_scope_spec. congruence.
Qed.

Lemma history_keeps p h : forall m n id,
  id_inv n m -> n + weights h <= 4294967296 -> In id (ids (m_jobs m)) ->
  In id (ids (m_jobs (mem_run p m h)))
  \/ exists a now ps b j, h = a ++ (now, OpPrune ps) :: b
       /\ In j (jobs_of (mem_run p m a)) /\ j_id j = id /\ in_scope ps j.
Proof.
  induction h as [|[now o] h IH]; intros m n id Hi Hw Hid; cbn [mem_run weights] in *; [auto|].
  pose proof (weights_nonneg h). destruct (ids_in_inv _ _ Hid) as [k [Hk Hkid]].
  destruct (id_inv_step p now m o n Hi ltac:(lia)) as [n' [Hn' Hi']].
  pose proof (mem_step_jstep p now m o (ii_nodup _ _ Hi)) as Hj.
  destruct (mem_step p now m o) as [m' r] eqn:E. cbn [fst] in *.
  destruct (jstep_keeps _ _ _ _ _ _ k Hj Hk) as [Hin|[ps [-> [_ Hs]]]].
  - rewrite Hkid in Hin. destruct (IH m' n' id Hi' ltac:(lia) Hin)
      as [H1|[a [t [ps [b [j [-> [H1 H2]]]]]]]]; [auto|].
    right. exists ((now, o) :: a), t, ps, b, j. cbn [mem_run]. rewrite E. cbn [fst]. split; [reflexivity | auto].
  - right. exists [], now, ps, h, (kj_job k). cbn. split; [reflexivity|].
    split; [apply in_map; exact Hk | auto].
Qed.

(** * Finished jobs (C20, C21) *)

Lemma not_due_finished now ex j : finished j -> ~ due now ex j.
Proof. unfold finished, due, waiting. intros H [_ [H1 _]]. intuition congruence. Qed.

Lemma jstep_finished_kept p now o r l l' k :
  jstep p now o r l l' -> NoDup (ids l) -> In k l -> finished (kj_job k) ->
  ~ concerns (j_id (kj_job k)) o -> ~ prunes (kj_job k) o -> ~ replacing_enqueue o ->
  In k l' /\ hands_out (j_id (kj_job k)) (now, o, r) = false.
Proof.
  intros Hj Hnd Hk Hf Hc Hp Hr.
  destruct Hj as [o r l H|e id l H|e pre k0 post H H0|ex pre k0 post j' H H0|o id pre k0 post j' H H0 H1|ps l l' H].
  - split; [exact Hk|]. destruct o; try reflexivity. destruct r as [|?|[[|]|?|]|?]; cbn in *; try reflexivity.
    contradiction.
  - split; [apply in_or_app; left; exact Hk | reflexivity].
  - split; [|reflexivity]. assert (E : after_conflict e (kj_job k0) = kj_job k0).
    { unfold after_conflict. destruct (eq_criteria e) as [uq|] eqn:Eu; [|reflexivity].
      destruct (uc_on_conflict uq) as [|rs] eqn:Er; [reflexivity|].
      exfalso. apply Hr. exists uq, rs. auto. }
    rewrite E. destruct k0. exact Hk.
  - apply in_mid in Hk. destruct Hk as [->|Hk].
    + exfalso. eapply not_due_finished; eassumption.
    + split; [apply in_mid; auto|]. cbn.
      pose proof (nodup_other (fun k => j_id (kj_job k)) pre k0 post k Hnd Hk) as Hne. cbn in Hne.
      rewrite (job_executing_id _ _ _ _ H0). apply Z.eqb_neq. congruence.
  - assert (Hne : j_id (kj_job k0) <> j_id (kj_job k)).
    { intro He. apply Hc. destruct H; cbn; congruence. }
    split.
    + apply in_mid in Hk. apply in_mid. destruct Hk as [->|Hk]; [contradiction | auto].
    + destruct H; reflexivity.
  - split; [|reflexivity]. eapply retained_in_inv; [exact H | exact Hk | exact Hp].
Qed.

Lemma history_finished_kept p h : forall m n k,
  id_inv n m -> n + weights h <= 4294967296 -> In k (m_jobs m) -> finished (kj_job k) ->
  (forall now o, In (now, o) h ->
     ~ concerns (j_id (kj_job k)) o /\ ~ prunes (kj_job k) o /\ ~ replacing_enqueue o) ->
  In k (m_jobs (mem_run p m h)) /\ count (hands_out (j_id (kj_job k))) (mem_trace p m h) = 0.
Proof.
  induction h as [|[now o] h IH]; intros m n k Hi Hw Hk Hf Hall; cbn [mem_run mem_trace weights] in *.
  - split; [exact Hk | reflexivity].
  - pose proof (weights_nonneg h).
    destruct (id_inv_step p now m o n Hi ltac:(lia)) as [n' [Hn' Hi']].
    pose proof (mem_step_jstep p now m o (ii_nodup _ _ Hi)) as Hj.
    destruct (mem_step p now m o) as [m' r] eqn:E. cbn [fst] in *.
    destruct (Hall now o (or_introl eq_refl)) as [H1 [H2 H3]].
    destruct (jstep_finished_kept _ _ _ _ _ _ k Hj (ii_nodup _ _ Hi) Hk Hf H1 H2 H3) as [H4 H5].
    destruct (IH m' n' k Hi' ltac:(lia) H4 Hf) as [H6 H7].
    { intros t o' Ho. apply (Hall t o'). right. exact Ho. }
    split; [exact H6|]. unfold count in *. cbn [filter]. rewrite H5. exact H7.
Qed.

Lemma jstep_rid p now e i l l' :
  jstep p now (OpEnqueue e) (RId (Ok i)) l l' ->
  In i (ids l) \/ l' = l ++ [mk_kjob (new_job now i e) (key_of e)].
Proof.
  intro Hj. remember (OpEnqueue e) as o eqn:Eo. remember (RId (Ok i)) as r eqn:Er.
  destruct Hj as [o r l H|e0 i0 l H|e0 pre k0 post H H0|ex pre k0 post j' H H0|o i0 pre k0 post j' H H0 H1|ps l l' H];
    try discriminate.
  - subst. cbn in H. contradiction.
  - right. congruence.
  - left. injection Er as <-. apply ids_in, in_mid. auto.
Qed.

(** No job with this id is waiting. *)
Definition none_waiting (id : Z) (l : list kjob) : Prop :=
  forall k, In k l -> j_id (kj_job k) = id -> ~ waiting (kj_job k).

Lemma jstep_none_waiting p now o r l l' id n :
  jstep p now o r l l' -> (forall e i, o = OpEnqueue e -> r = RId (Ok i) -> ~ In i (ids l) -> ~ drawn n i) ->
  NoDup (ids l) -> NoDup (ids l') ->
  drawn n id -> none_waiting id l -> ~ releases id o ->
  none_waiting id l' /\ hands_out id (now, o, r) = false.
Proof.
  intros Hj Hfresh Hnd Hnd' Hd Hw Hr.
  destruct Hj as [o r l H|e i l H|e pre k0 post H H0|ex pre k0 post j' H H0|o i pre k0 post j' H H0 H1|ps l l' H].
  - split; [exact Hw|]. destruct o; try reflexivity. destruct r as [|?|[[|]|?|]|?]; cbn in *; try reflexivity.
    contradiction.
  - split; [|reflexivity]. intros k Hk Hid. apply in_app_or in Hk. destruct Hk as [Hk|[<-|[]]]; [auto|].
    exfalso. cbn in Hid. subst i. apply (Hfresh e id eq_refl eq_refl); [|exact Hd].
    unfold ids in Hnd'. rewrite map_app in Hnd'. cbn in Hnd'. apply NoDup_remove_2 in Hnd'.
    rewrite app_nil_r in Hnd'. exact Hnd'.
  - split; [|reflexivity]. intros k Hk Hid. apply in_mid in Hk. destruct Hk as [->|Hk].
    + cbn in *. rewrite after_conflict_id in Hid.
      destruct (after_conflict_attempt e (kj_job k0)) as [_ [_ [Hs _]]].
      assert (Hw0 := Hw k0 ltac:(apply in_mid; auto) Hid). unfold waiting in *. rewrite Hs. exact Hw0.
    + apply Hw; [apply in_mid; auto | exact Hid].
  - assert (Hne : j_id (kj_job k0) <> id).
    { intro He. apply (Hw k0 ltac:(apply in_mid; auto) He). apply H. }
    pose proof (job_executing_id _ _ _ _ H0) as Hid'.
    split; [|cbn; apply Z.eqb_neq; congruence].
    intros k Hk Hid. apply in_mid in Hk. destruct Hk as [->|Hk]; [cbn in *; congruence|].
    apply Hw; [apply in_mid; auto | exact Hid].
  - split; [|destruct H; reflexivity].
    intros k Hk Hid. apply in_mid in Hk. destruct Hk as [->|Hk];
      [|apply Hw; [apply in_mid; auto | exact Hid]].
    cbn in *. pose proof (one_effect_id _ _ _ _ _ _ H H0) as Hid'.
    destruct H; cbn in *; unfold waiting; cbn; try (intuition congruence).
    all: exfalso; apply Hr; congruence.
  - split; [|reflexivity]. intros k Hk. apply Hw. eapply retained_in; eassumption.
Qed.

Lemma history_none_waiting p h : forall m n id,
  id_inv n m -> n + weights h <= 4294967296 -> drawn n id -> none_waiting id (m_jobs m) ->
  (forall now o, In (now, o) h -> ~ releases id o) ->
  count (hands_out id) (mem_trace p m h) = 0.
Proof.
  induction h as [|[now o] h IH]; intros m n id Hi Hw Hd Hk Hall; cbn [mem_run mem_trace weights] in *.
  - reflexivity.
  - pose proof (weights_nonneg h).
    destruct (id_inv_step p now m o n Hi ltac:(lia)) as [n' [Hn' Hi']].
    pose proof (mem_step_jstep p now m o (ii_nodup _ _ Hi)) as Hj.
    pose proof (mem_step_next p now m o) as Hs. cbn zeta in Hs.
    destruct (mem_step p now m o) as [m' r] eqn:E. cbn [fst snd] in *.
    destruct (jstep_none_waiting _ _ _ _ _ _ id n Hj) as [H1 H2]; auto.
    + intros e i -> -> Hni. destruct (jstep_rid _ _ _ _ _ _ Hj) as [Hin|Hl']; [contradiction|].
      destruct Hs as [[_ Hs]|[e' [_ [_ [[Hs _]|[Hs Hr]]]]]].
      * exfalso. rewrite Hl', app_length in Hs. cbn in Hs. lia.
      * exfalso. rewrite Hl' in Hs. apply (f_equal (@length kjob)) in Hs. rewrite app_length in Hs.
        cbn in Hs. lia.
      * injection Hr as ->. pose proof (ii_next _ _ Hi) as Hnx. rewrite Hnx.
        apply drawn_fresh. pose proof (ii_n _ _ Hi). cbn [weight] in Hw. lia.
    + exact (ii_nodup _ _ Hi).
    + exact (ii_nodup _ _ Hi').
    + apply (Hall now o). left. reflexivity.
    + unfold count in *. cbn [filter]. rewrite H2.
      apply (IH m' n' id Hi'); auto; [lia | eapply drawn_mono; [|exact Hd]; lia |].
      intros t o' Ho. apply (Hall t o'). right. exact Ho.
Qed.

(** * When the backend keeps working (C57) *)

Definition in_bounds (b : Z) (l : list kjob) : Prop :=
  forall k, In k l ->
    - b <= j_attempt (kj_job k) <= b /\ - b <= j_max_attempts (kj_job k) <= b.

Lemma with_job_unpoisoned m id f nt :
  m_poisoned m = false ->
  (forall k, In k (m_jobs m) -> f (kj_job k) <> None) ->
  m_poisoned (fst (with_job m id f nt)) = false
  /\ (snd (with_job m id f nt) = Ok tt \/ snd (with_job m id f nt) = Err (JobNotFound id)).
Proof.
  intros Hp Hf. pose proof (with_job_spec m id f nt Hp) as H.
  destruct (with_job m id f nt) as [m' [[]|e|]]; cbn.
  - destruct H as [pre [k [post [j' [_ [_ [_ [_ ->]]]]]]]]. split; [|auto].
    destruct nt; cbn zeta; rewrite ?notify_poisoned; exact Hp.
  - destruct H as [-> [-> _]]. auto.
  - destruct H as [_ [pre [k [post [Hl [_ [_ H]]]]]]]. exfalso.
    apply (Hf k); [rewrite Hl; apply in_mid; auto | exact H].
Qed.

Lemma mem_step_unpoisoned p now m o b :
  m_poisoned m = false -> in_bounds b (m_jobs m) -> b < 2147483647 -> age_fits now o ->
  NoDup (ids (m_jobs m)) ->
  m_poisoned (fst (mem_step p now m o)) = false /\ ~ broken_result (snd (mem_step p now m o)).
Proof.
  intros Hp Hb Hlt Hfit Hnd.
  assert (Hw : forall id f nt, (forall k, In k (m_jobs m) -> f (kj_job k) <> None) ->
     let r := with_job m id f nt in
     m_poisoned (fst (let (m', r) := r in (m', RUnit r))) = false
     /\ ~ broken_result (snd (let (m', r) := r in (m', RUnit r)))).
  { intros id f nt Hf. cbn zeta. destruct (with_job_unpoisoned m id f nt Hp Hf) as [H1 H2].
    destruct (with_job m id f nt) as [m' r]. cbn in *. split; [exact H1|].
    unfold broken_result. destruct H2 as [->| ->]; intuition discriminate. }
  destruct o as [e|ex|id|id t er|id er|id er|id t|ps|id|j|q|ex| |]; cbn [mem_step].
  - assert (Hins : m_poisoned (fst (let (m', r) := insert_new_job now m e in (m', RId r))) = false
       /\ ~ broken_result (snd (let (m', r) := insert_new_job now m e in (m', RId r)))).
    { destruct (insert_new_job_ok now m e Hp) as [m' [-> [_ [_ [H _]]]]]. cbn.
      split; [exact H|]. unfold broken_result. intuition discriminate. }
    unfold mem_enqueue. destruct (eq_criteria e) as [uq|]; [|exact Hins].
    unfold insert_unique_job, matching_jobs. rewrite Hp.
    destruct (filter (enqueuable_matches now e) (m_jobs m)) as [|k rest] eqn:Ef; [exact Hins|].
    unfold mem_update.
    destruct (with_job_unpoisoned m (j_id (job_replace e (kj_job k)))
                (fun _ => Some (job_replace e (kj_job k))) true Hp) as [H1 H2]; [discriminate|].
    destruct (with_job m _ _ true) as [m' r]. cbn in H1, H2.
    destruct H2 as [->| ->]; cbn; split; auto; unfold broken_result; intuition discriminate.
  - pose proof (mem_load_spec p now m ex Hp) as H.
    destruct (mem_load p now m ex) as [m' [[j'|]|err|]]; cbn.
    + destruct H as [pre [k [post [_ [_ [_ [-> _]]]]]]]. split; [exact Hp|].
      unfold broken_result. intuition discriminate.
    + destruct H as [-> _]. split; [exact Hp|]. unfold broken_result. intuition discriminate.
    + destruct H.
    + destruct H as [_ [k [Hk [_ Hn]]]]. exfalso. apply job_executing_none in Hn.
      pose proof (Hb k Hk). lia.
  - apply Hw. discriminate.
  - apply Hw. discriminate.
  - apply Hw. discriminate.
  - apply Hw. discriminate.
  - apply Hw. intros k Hk Hn. apply job_snoozed_none in Hn. pose proof (Hb k Hk). lia.
  - unfold mem_prune. rewrite Hp. cbn in Hfit. unfold dt_sub, dt_add, in_dt.
    destruct (ps_by ps) as [d|n].
    + assert (E1 : (dt_min <=? now - d) && (now - d <=? dt_max) = true)
        by (apply andb_true_iff; rewrite !Z.leb_le; tauto).
      assert (E2 : (dt_min <=? now + d) && (now + d <=? dt_max) = true)
        by (apply andb_true_iff; rewrite !Z.leb_le; tauto).
      rewrite E1, E2.
      cbn. split; [exact Hp|]. unfold broken_result. intuition discriminate.
    + cbn. split; [exact Hp|]. unfold broken_result. intuition discriminate.
  - apply Hw. intros k Hk Hn. apply job_rerunable_none in Hn. pose proof (Hb k Hk). lia.
  - apply Hw. discriminate.
  - cbn. split; [exact Hp|]. unfold mem_query, matching_jobs. rewrite Hp.
    unfold broken_result. intuition discriminate.
  - cbn. split; [exact Hp|]. unfold broken_result. intuition discriminate.
  - cbn. split; [exact Hp|]. unfold broken_result. intuition discriminate.
  - cbn. split; [exact Hp|]. unfold broken_result. intuition discriminate.
Qed.

Lemma in_bounds_mono b b' l : b <= b' -> in_bounds b l -> in_bounds b' l.
Proof. intros H Hb k Hk. pose proof (Hb k Hk). lia. Qed.

Lemma jstep_in_bounds p now o r l l' b :
  jstep p now o r l l' -> in_bounds b l -> 65535 <= b < 2147483646 -> counters_fit o ->
  in_bounds (b + 1) l'.
Proof.
  intros Hj Hb Hlt Hc.
  destruct Hj as [o r l H|e i l H|e pre k0 post H H0|ex pre k0 post j' H H0|o i pre k0 post j' H H0 H1|ps l l' H];
    intros k Hk.
  - pose proof (Hb k Hk). lia.
  - apply in_app_or in Hk. destruct Hk as [Hk|[<-|[]]]; [pose proof (Hb k Hk); lia|].
    cbn in *. lia.
  - apply in_mid in Hk. destruct Hk as [->|Hk].
    + cbn. pose proof (Hb k0 ltac:(apply in_mid; auto)) as Hb0.
      unfold after_conflict. destruct (eq_criteria e) as [uq|]; [|lia].
      destruct (uc_on_conflict uq) as [|rs]; [lia|]. destruct in_dec; [|lia]. cbn in *.
      destruct (rp_max_attempts rs); lia.
    + pose proof (Hb k ltac:(apply in_mid; auto)). lia.
  - apply in_mid in Hk. destruct Hk as [->|Hk].
    + pose proof (Hb k0 ltac:(apply in_mid; auto)) as Hb0.
      apply job_executing_ok in H0; [|lia]. subst. cbn. lia.
    + pose proof (Hb k ltac:(apply in_mid; auto)). lia.
  - apply in_mid in Hk. destruct Hk as [->|Hk].
    + pose proof (Hb k0 ltac:(apply in_mid; auto)) as Hb0.
      destruct H as [| | | |id t j j' H|id j j' H|j j']; cbn in *; try lia.
      * apply job_snoozed_spec in H; [|lia]. subst. cbn. lia.
      * apply job_rerunable_spec in H; [|lia]. subst. cbn. lia.
    + pose proof (Hb k ltac:(apply in_mid; auto)). lia.
  - pose proof (Hb k ltac:(eapply retained_in; eassumption)). lia.
Qed.

Lemma weights_length h : weights h <= Z.of_nat (length h).
Proof.
  rewrite weights_enqueues. unfold enqueues.
  induction h as [|x h IH]; cbn [filter length]; [lia|]. destruct (is_enqueue x); cbn [length]; lia.
Qed.

Lemma run_unpoisoned p h : forall m n b,
  id_inv n m -> m_poisoned m = false -> in_bounds b (m_jobs m) -> 65535 <= b ->
  b + Z.of_nat (length h) < 2147483647 -> n + Z.of_nat (length h) <= 4294967296 ->
  (forall now o, In (now, o) h -> age_fits now o /\ counters_fit o) ->
  let m' := mem_run p m h in
  m_poisoned m' = false /\ in_bounds (b + Z.of_nat (length h)) (m_jobs m')
  /\ exists n', id_inv n' m' /\ n' <= n + Z.of_nat (length h).
Proof.
  induction h as [|[now o] h IH]; intros m n b Hi Hp Hb H0 Hlt Hn Hall; cbn [mem_run length] in *.
  - cbn zeta. split; [exact Hp|]. split; [eapply in_bounds_mono; [|exact Hb]; lia|].
    exists n. split; [exact Hi | lia].
  - destruct (Hall now o (or_introl eq_refl)) as [Hf Hc].
    assert (Hwo : weight o <= 1) by (destruct o; cbn; lia).
    destruct (id_inv_step p now m o n Hi ltac:(lia)) as [n' [Hn' Hi']].
    destruct (mem_step_unpoisoned p now m o b Hp Hb ltac:(lia) Hf (ii_nodup _ _ Hi)) as [Hp' _].
    pose proof (mem_step_jstep p now m o (ii_nodup _ _ Hi)) as Hj.
    destruct (mem_step p now m o) as [m' r]. cbn [fst] in *.
    pose proof (jstep_in_bounds _ _ _ _ _ _ b Hj Hb ltac:(lia) Hc) as Hb'.
    destruct (IH m' n' (b + 1) Hi' Hp' Hb' ltac:(lia) ltac:(lia) ltac:(lia)) as [H1 [H2 [n2 [H3 H4]]]].
    { intros t o' Ho. apply (Hall t o'). right. exact Ho. }
    cbn zeta. split; [exact H1|].
    replace (b + Z.of_nat (S (length h))) with (b + 1 + Z.of_nat (length h)) by lia.
    split; [exact H2|]. exists n2. split; [exact H3 | lia].
Qed.

Lemma mem_step_poisoned p now m o :
  m_poisoned m = true ->
  m_poisoned (fst (mem_step p now m o)) = true
  /\ jobs_of (fst (mem_step p now m o)) = jobs_of m
  /\ (on_jobs o -> broken_result (snd (mem_step p now m o))).
Proof.
  intro Hp. unfold jobs_of, broken_result.
  destruct o; cbn; unfold mem_enqueue, insert_unique_job, insert_new_job, matching_jobs, mem_load,
      mem_prune, mem_mark_complete, mem_mark_retryable, mem_mark_discarded, mem_mark_cancelled,
      mem_mark_snoozed, mem_rerun, mem_update, with_job, mem_query, matching_jobs;
    cbn [m_poisoned]; rewrite ?Hp; cbn; auto 20.
  all: try (destruct (eq_criteria e); cbn; auto 20).
  all: split; [auto | split; [reflexivity | intros []; auto 20]].
Qed.

(** * Everybody's turn comes (C32) *)

Lemma app_split_cases {A} (l1 : list A) : forall x l2 l1' y l2',
  l1 ++ x :: l2 = l1' ++ y :: l2' ->
  (l1 = l1' /\ x = y /\ l2 = l2')
  \/ (exists mid, l1 = l1' ++ y :: mid /\ l2' = mid ++ x :: l2)
  \/ (exists mid, l1' = l1 ++ x :: mid /\ l2 = mid ++ y :: l2').
Proof.
  induction l1 as [|a l1 IH]; intros x l2 [|b l1'] y l2' H; cbn in H.
  - injection H as -> ->. auto.
  - injection H as -> ->. right. right. exists l1'. auto.
  - injection H as -> <-. right. left. exists l1. auto.
  - injection H as -> H. destruct (IH _ _ _ _ _ H) as [[-> [-> ->]]|[[mid [-> ->]]|[mid [-> ->]]]].
    + auto.
    + right. left. exists mid. auto.
    + right. right. exists mid. auto.
Qed.

Lemma retained_split {A} (P : A -> Prop) pre j post l' :
  retained P (pre ++ j :: post) l' -> ~ P j ->
  exists pre' post', l' = pre' ++ j :: post' /\ retained P pre pre' /\ retained P post post'.
Proof.
  revert l'. induction pre as [|a pre IH]; cbn; intros l' H Hn.
  - inversion H as [|? ? l1 H1|? ? l1 H1 H2]; subst; [|contradiction].
    exists [], l1. repeat split; auto. constructor.
  - inversion H as [|? ? l1 H1|? ? l1 H1 H2]; subst.
    + destruct (IH _ H1 Hn) as [pre' [post' [-> [H3 H4]]]]. exists (a :: pre'), post'.
      repeat split; auto. constructor. exact H3.
    + destruct (IH _ H2 Hn) as [pre' [post' [-> [H3 H4]]]]. exists pre', post'.
      repeat split; auto. constructor; auto.
Qed.

Lemma retained_filter_le {A} (P : A -> Prop) (f : A -> bool) l l' :
  retained P l l' -> (length (filter f l') <= length (filter f l))%nat.
Proof.
  induction 1 as [|x l l' H IH|x l l' Hx H IH]; cbn; [lia| |].
  - destruct (f x); cbn; lia.
  - destruct (f x); cbn; lia.
Qed.

Definition b2n (b : bool) : nat := if b then 1%nat else 0%nat.

Lemma filter_mid {A} (f : A -> bool) pre x post :
  length (filter f (pre ++ x :: post))
  = (length (filter f pre) + b2n (f x) + length (filter f post))%nat.
Proof.
  rewrite filter_app, app_length. cbn. destruct (f x); cbn; lia.
Qed.

Definition kahead (pre : list kjob) (j : job) (post : list kjob) : nat :=
  ahead (map kj_job pre) j (map kj_job post).

Definition a1 (j x : job) : bool :=
  waitingb x && String.eqb (j_executor x) (j_executor j) && negb (earlier j x).
Definition a2 (j x : job) : bool :=
  waitingb x && String.eqb (j_executor x) (j_executor j) && earlier x j.

Lemma filter_map_length {A B} (g : A -> B) (f : B -> bool) l :
  length (filter f (map g l)) = length (filter (fun x => f (g x)) l).
Proof. induction l as [|x l IH]; cbn; [reflexivity|]. destruct (f (g x)); cbn; congruence. Qed.

Lemma kahead_eq pre j post :
  kahead pre j post = (length (filter (fun k => a1 j (kj_job k)) pre)
                       + length (filter (fun k => a2 j (kj_job k)) post))%nat.
Proof.
  unfold kahead, ahead, a1, a2. rewrite !filter_map_length. reflexivity.
Qed.

Lemma waitingb_iff j : waitingb j = true <-> waiting j.
Proof. unfold waitingb, waiting. destruct (j_status j); intuition congruence. Qed.

Lemma earlier_iff a b : earlier a b = true <-> strictly_before a b.
Proof. unfold earlier, strictly_before. lia. Qed.

(** Replacing one other job by a version that is not ahead of [j]. *)
Lemma replace_other (j : job) kj pre post pre0 k post0 k' :
  kj_job kj = j ->
  pre0 ++ k :: post0 = pre ++ kj :: post -> j_id (kj_job k) <> j_id j ->
  a1 j (kj_job k') = false -> a2 j (kj_job k') = false ->
  exists pre' post', pre0 ++ k' :: post0 = pre' ++ kj :: post'
    /\ ((In k pre /\ kahead pre j post = (kahead pre' j post' + b2n (a1 j (kj_job k)))%nat
         /\ In kj post0)
        \/ (In k post /\ kahead pre j post = (kahead pre' j post' + b2n (a2 j (kj_job k)))%nat
            /\ In kj pre0)).
Proof.
  intros Hkj Heq Hne H1 H2. destruct (app_split_cases _ _ _ _ _ _ Heq)
    as [[_ [-> _]]|[[mid [-> ->]]|[mid [-> ->]]]].
  - congruence.
  - exists pre, (mid ++ k' :: post0). split; [rewrite <- app_assoc; reflexivity|].
    right. split; [apply in_mid; auto|]. split; [|apply in_mid; auto].
    rewrite !kahead_eq, !filter_mid. rewrite H2. cbn. lia.
  - exists (pre0 ++ k' :: mid), post. split; [rewrite <- app_assoc; reflexivity|].
    left. split; [apply in_mid; auto|]. split; [|apply in_mid; auto].
    rewrite !kahead_eq, !filter_mid. rewrite H1. cbn. lia.
Qed.

Lemma not_waiting_not_ahead j x : waitingb x = false -> a1 j x = false /\ a2 j x = false.
Proof. unfold a1, a2. intros ->. auto. Qed.

Lemma later_not_ahead j x : j_scheduled_at j < j_scheduled_at x -> a1 j x = false /\ a2 j x = false.
Proof. unfold a1, a2, earlier. intro H. lia. Qed.

Lemma line_jstep p now o r kj pre post l' b :
  jstep p now o r (pre ++ kj :: post) l' -> in_bounds b (pre ++ kj :: post) -> b < 2147483647 ->
  (forall ex, o <> OpLoad ex) -> lets_by (kj_job kj) now o ->
  exists pre' post', l' = pre' ++ kj :: post'
    /\ (kahead pre' (kj_job kj) post' <= kahead pre (kj_job kj) post)%nat.
Proof.
  intros Hj Hb Hlt Hload Hby. remember (pre ++ kj :: post) as l0 eqn:El.
  destruct Hj as [o r l2 H|e0 i0 l2 H|e0 pre0 k0 post0 H H0|ex0 pre0 k0 post0 j' H H0
                 |o i0 pre0 k0 post0 j' H H0 H1|ps0 l2 l2' H].
  - exists pre, post. split; [exact El | lia].
  - destruct Hby as [_ Hby]. exists pre, (post ++ [mk_kjob (new_job now i0 e0) (key_of e0)]).
    split; [rewrite El, <- app_assoc; reflexivity|].
    rewrite !kahead_eq, filter_app, app_length. cbn [filter].
    replace (a2 (kj_job kj) (kj_job (mk_kjob (new_job now i0 e0) (key_of e0)))) with false; [cbn; lia|].
    unfold a2, earlier. cbn. lia.
  - exfalso. destruct Hby as [Hnone _]. destruct H as [uq [H _]]. congruence.
  - exfalso. apply (Hload ex0). reflexivity.
  - assert (Hbk := Hb k0 ltac:(apply in_mid; auto)).
    assert (E : j_id (kj_job k0) <> j_id (kj_job kj)).
    { destruct H; cbn in Hby; rewrite H0; tauto. }
    assert (Ha : a1 (kj_job kj) j' = false /\ a2 (kj_job kj) j' = false).
    { destruct H as [| | | |id0 t0 j0 j'0 H|id0 j0 j'0 H|j0 j'0]; cbn in Hby;
        try (apply not_waiting_not_ahead; reflexivity);
        try (apply later_not_ahead; cbn; tauto).
      - apply job_snoozed_spec in H; [|lia]. subst j'0. apply later_not_ahead. cbn. tauto.
      - apply job_rerunable_spec in H; [|lia]. subst j'0. apply later_not_ahead. cbn. tauto. }
    destruct Ha as [Ha1 Ha2].
    destruct (replace_other (kj_job kj) kj pre post pre0 k0 post0 (mk_kjob j' (kj_key k0)) eq_refl El E Ha1 Ha2)
      as [pre' [post' [Heq [[_ [Hc _]]|[_ [Hc _]]]]]];
      exists pre', post'; (split; [exact Heq | lia]).
  - subst l2. destruct (retained_split _ _ _ _ _ H Hby) as [pre' [post' [-> [R1 R2]]]].
    exists pre', post'. split; [reflexivity|]. rewrite !kahead_eq.
    pose proof (retained_filter_le _ (fun k => a1 (kj_job kj) (kj_job k)) _ _ R1).
    pose proof (retained_filter_le _ (fun k => a2 (kj_job kj) (kj_job k)) _ _ R2). lia.
Qed.

Lemma line_step p now m o n b kj pre post :
  id_inv n m -> m_poisoned m = false -> in_bounds b (m_jobs m) -> b < 2147483647 ->
  age_fits now o ->
  m_jobs m = pre ++ kj :: post -> waiting (kj_job kj) ->
  j_scheduled_at (kj_job kj) - now < 100 * 1000 * 1000 -> lets_by (kj_job kj) now o ->
  let '(m', r) := mem_step p now m o in
  hands_out (j_id (kj_job kj)) (now, o, r) = true
  \/ exists pre' post', m_jobs m' = pre' ++ kj :: post'
       /\ (kahead pre' (kj_job kj) post' + b2n (asks (j_executor (kj_job kj)) (now, o))
           <= kahead pre (kj_job kj) post)%nat.
Proof.
  intros Hi Hp Hb Hlt Hfit Hl Hw Hdue Hby.
  pose proof (ii_nodup _ _ Hi) as Hnd.
  destruct o as [e|ex|id|id t er|id er|id er|id t|ps|id|j|q|ex| |].
  2:{ (* a hand-out *)
    cbn [mem_step]. pose proof (mem_load_spec p now m ex Hp) as H.
    assert (Hdj : forall k, In k (pre ++ kj :: post) -> In k (m_jobs m)) by (rewrite Hl; auto).
    destruct (mem_load p now m ex) as [m' [[j'|]|err|]].
    - destruct H as [pre0 [k [post0 [H1 [H2 [H3 [-> [H4 H5]]]]]]]]. cbn [hands_out].
      pose proof (job_executing_id _ _ _ _ H3) as Hid.
      destruct (Z.eq_dec (j_id (kj_job k)) (j_id (kj_job kj))) as [E|E].
      { left. apply Z.eqb_eq. congruence. }
      right. cbn [set_jobs m_jobs]. rewrite Hl in H1. symmetry in H1.
      pose proof (Hb k ltac:(apply Hdj; rewrite <- H1; apply in_mid; auto)) as Hbk.
      apply job_executing_ok in H3; [|lia]. subst j'.
      destruct (replace_other (kj_job kj) kj pre post pre0 k post0
                  (mk_kjob (after_hand_out now (kj_job k)) (kj_key k)) eq_refl H1 E eq_refl eq_refl)
        as [pre' [post' [Heq Hc]]].
      exists pre', post'. split; [exact Heq|]. unfold asks. cbn [snd].
      destruct (String.eqb_spec ex (j_executor (kj_job kj))) as [Hex|Hex]; cbn [b2n].
      + assert (Hjdue : due now ex (kj_job kj)) by (repeat split; auto).
        destruct H2 as [He2 [Hw2 _]].
        destruct Hc as [[_ [Hc Hin]]|[_ [Hc Hin]]].
        * assert (Ha : a1 (kj_job kj) (kj_job k) = true).
          { unfold a1. apply waitingb_iff in Hw2. rewrite Hw2, He2, Hex, String.eqb_refl. cbn.
            apply negb_true_iff. destruct (earlier (kj_job kj) (kj_job k)) eqn:Ee; [|reflexivity].
            apply earlier_iff in Ee. exfalso. exact (H5 kj Hin Hjdue Ee). }
          rewrite Ha in Hc. cbn in Hc. lia.
        * assert (Ha : a2 (kj_job kj) (kj_job k) = true).
          { unfold a2. apply waitingb_iff in Hw2. rewrite Hw2, He2, Hex, String.eqb_refl. cbn.
            apply earlier_iff. exact (H4 kj Hin Hjdue). }
          rewrite Ha in Hc. cbn in Hc. lia.
      + destruct Hc as [[_ [Hc _]]|[_ [Hc _]]]; lia.
    - destruct H as [-> H]. right. exists pre, post. split; [exact Hl|]. unfold asks. cbn [snd].
      destruct (String.eqb_spec ex (j_executor (kj_job kj))) as [Hex|Hex]; cbn [b2n]; [|lia].
      exfalso. apply (H kj); [apply Hdj, in_mid; auto | repeat split; auto].
    - destruct H.
    - destruct H as [_ [k [Hk [_ Hn]]]]. exfalso. apply job_executing_none in Hn.
      pose proof (Hb k Hk). lia. }
  all: clear Hdue.
  all: match goal with |- context [mem_step _ _ _ ?op] =>
         pose proof (mem_step_jstep p now m op Hnd) as Hj;
         destruct (mem_step p now m op) as [m' r]; rewrite Hl in Hj, Hb;
         right; unfold asks; cbn [snd b2n];
         destruct (line_jstep p now op r kj pre post (m_jobs m') b Hj Hb Hlt ltac:(discriminate) Hby)
           as [pre' [post' [H1 H2]]];
         exists pre', post'; split; [exact H1 | lia]
       end.
Qed.

Lemma line_run p h : forall m n b kj pre post,
  id_inv n m -> m_poisoned m = false -> in_bounds b (m_jobs m) -> 65535 <= b ->
  b + Z.of_nat (length h) < 2147483647 -> n + Z.of_nat (length h) <= 4294967296 ->
  m_jobs m = pre ++ kj :: post -> waiting (kj_job kj) ->
  (forall now o, In (now, o) h ->
     age_fits now o /\ counters_fit o /\ lets_by (kj_job kj) now o
     /\ j_scheduled_at (kj_job kj) - now < 100 * 1000 * 1000) ->
  (kahead pre (kj_job kj) post < length (filter (asks (j_executor (kj_job kj))) h))%nat ->
  exists ev, In ev (mem_trace p m h) /\ hands_out (j_id (kj_job kj)) ev = true.
Proof.
  induction h as [|[now o] h IH]; intros m n b kj pre post Hi Hp Hb H0 Hlt Hn Hl Hw Hall Hc.
  - cbn in Hc. lia.
  - cbn [length mem_trace] in *. destruct (Hall now o (or_introl eq_refl)) as [Hf [Hcf [Hby Hdue]]].
    assert (Hwo : weight o <= 1) by (destruct o; cbn; lia).
    destruct (id_inv_step p now m o n Hi ltac:(lia)) as [n' [Hn' Hi']].
    destruct (mem_step_unpoisoned p now m o b Hp Hb ltac:(lia) Hf (ii_nodup _ _ Hi)) as [Hp' _].
    pose proof (mem_step_jstep p now m o (ii_nodup _ _ Hi)) as Hj.
    pose proof (line_step p now m o n b kj pre post Hi Hp Hb ltac:(lia) Hf Hl Hw Hdue Hby) as Hs.
    destruct (mem_step p now m o) as [m' r]. cbn [fst] in *.
    pose proof (jstep_in_bounds _ _ _ _ _ _ b Hj Hb ltac:(lia) Hcf) as Hb'.
    destruct Hs as [Hs|[pre' [post' [Hl' Hs]]]].
    + exists (now, o, r). split; [left; reflexivity | exact Hs].
    + destruct (IH m' n' (b + 1) kj pre' post' Hi' Hp' Hb') as [ev [Hev1 Hev2]]; auto; try lia.
      * intros t o' Ho. apply (Hall t o'). right. exact Ho.
      * cbn [filter] in Hc. destruct (asks _ (now, o)); cbn [b2n length] in *; lia.
      * exists ev. split; [right; exact Hev1 | exact Hev2].
Qed.
