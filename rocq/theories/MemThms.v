(** Lemmas closing the statements of PropsMem.v. *)
From Verif Require Import Base Chrono Types TypesProofs Query Memory MemSpec QueryProofs MemProofs
  MemHist MemHist2 MemNotify.

Lemma reached_kids p h m : reached p h m -> NoDup (ids (m_jobs m)).
Proof. intro H. rewrite <- jobs_of_ids. eapply reached_nodup. exact H. Qed.

Lemma enqueue_stores_lemma p h m now e m' id :
  reached p h m -> enqueues h < 4294967296 -> eq_criteria e = None ->
  mem_step p now m (OpEnqueue e) = (m', RId (Ok id)) ->
  jobs_of m' = jobs_of m ++ [new_job now id e] /\ ~ In id (map j_id (jobs_of m)).
Proof.
  intros Hr Hlt He Hs. destruct (reached_id_inv _ _ _ Hr) as [n [Hn Hi]].
  pose proof (mem_step_jstep p now m (OpEnqueue e) (ii_nodup _ _ Hi)) as Hj. rewrite Hs in Hj.
  destruct (id_inv_step p now m (OpEnqueue e) n Hi) as [n' [_ Hi']]; [cbn [weight]; lia|].
  rewrite Hs in Hi'. cbn [fst] in Hi'.
  cbn [mem_step] in Hs. unfold mem_enqueue in Hs. rewrite He in Hs.
  assert (Hl : m_jobs m' = m_jobs m ++ [mk_kjob (new_job now id e) (key_of e)]).
  { destruct (m_poisoned m) eqn:Hp.
    - unfold insert_new_job in Hs. cbn [m_poisoned] in Hs. rewrite Hp in Hs. discriminate.
    - destruct (insert_new_job_ok now m e Hp) as [m1 [H1 [H2 _]]]. rewrite H1 in Hs.
      injection Hs as <- <-. exact H2. }
  unfold jobs_of. rewrite Hl, map_app. split; [reflexivity|].
  pose proof (ii_nodup _ _ Hi') as Hnd. rewrite Hl in Hnd. unfold ids in Hnd. rewrite map_app in Hnd.
  cbn in Hnd. apply NoDup_remove_2 in Hnd. rewrite app_nil_r in Hnd. rewrite map_map. exact Hnd.
Qed.

Lemma hand_out_lemma p now m ex :
  m_poisoned m = false -> counters_in_range m ->
  let (m', r) := mem_step p now m (OpLoad ex) in
  (exists pre j post,
      r = RJob (Ok (Some (after_hand_out now j)))
      /\ jobs_of m = pre ++ j :: post /\ jobs_of m' = pre ++ after_hand_out now j :: post
      /\ due now ex j
      /\ (forall x, In x pre -> due now ex x -> strictly_before j x)
      /\ (forall x, In x post -> due now ex x -> ~ strictly_before x j))
  \/ (r = RJob (Ok None) /\ jobs_of m' = jobs_of m /\ forall j, In j (jobs_of m) -> ~ due now ex j).
Proof.
  intros Hp Hc. cbn [mem_step]. pose proof (mem_load_spec p now m ex Hp) as H.
  assert (Hc' : forall k, In k (m_jobs m) -> -2147483648 < j_attempt (kj_job k) < 2147483647).
  { intros k Hk. apply Hc. apply in_map. exact Hk. }
  destruct (mem_load p now m ex) as [m' [[j'|]|err|]].
  - left. destruct H as [pre [k [post [H1 [H2 [H3 [-> [H4 H5]]]]]]]].
    pose proof (Hc' k ltac:(rewrite H1; apply in_mid; auto)) as Hk.
    apply job_executing_ok in H3; [|lia]. subst j'.
    exists (map kj_job pre), (kj_job k), (map kj_job post). unfold jobs_of. cbn [set_jobs m_jobs].
    rewrite H1, !map_app_cons. repeat split; auto.
    + apply H2.
    + apply H2.
    + apply H2.
    + intros x Hx. apply in_map_iff in Hx. destruct Hx as [kx [<- Hx]]. auto.
    + intros x Hx. apply in_map_iff in Hx. destruct Hx as [kx [<- Hx]]. auto.
  - right. destruct H as [-> H]. repeat split; auto. intros j Hj.
    apply in_map_iff in Hj. destruct Hj as [k [<- Hk]]. auto.
  - destruct H.
  - exfalso. destruct H as [_ [k [Hk [_ H]]]]. apply job_executing_none in H.
    pose proof (Hc' k Hk). lia.
Qed.

Lemma uniqueness_lemma p h m now e m' id :
  reached p h m -> mem_step p now m (OpEnqueue e) = (m', RId (Ok id)) ->
  ((forall k, In k (m_jobs m) -> ~ conflicts_mem now e k)
    /\ m_jobs m' = m_jobs m ++ [mk_kjob (new_job now id e)
                                 (match eq_criteria e with Some uq => uc_key uq | None => None end)])
  \/ (exists pre k post,
        m_jobs m = pre ++ k :: post
        /\ m_jobs m' = pre ++ mk_kjob (after_conflict e (kj_job k)) (kj_key k) :: post
        /\ conflicts_mem now e k /\ j_id (kj_job k) = id
        /\ (forall x, In x pre -> ~ conflicts_mem now e x)).
Proof.
  intros Hr Hs. pose proof (mem_step_jstep p now m (OpEnqueue e) (reached_kids _ _ _ Hr)) as Hj.
  rewrite Hs in Hj. remember (OpEnqueue e) as o eqn:Eo. remember (RId (Ok id)) as r eqn:Er.
  remember (m_jobs m) as l eqn:El. remember (m_jobs m') as l' eqn:El'.
  destruct Hj as [o r l H|e0 i0 l H|e0 pre k0 post H H0|ex pre k0 post j' H H0|o i0 pre k0 post j' H H0 H1|ps l l' H];
    try discriminate.
  - subst. cbn in H. contradiction.
  - injection Eo as ->. injection Er as ->. left. auto.
  - injection Eo as ->. injection Er as <-. right. exists pre, k0, post. auto 10.
Qed.

Lemma report_lemma p now m o id f :
  m_poisoned m = false -> counters_in_range m -> report_effect now o = Some (id, f) ->
  let (m', r) := mem_step p now m o in
  (r = RUnit (Ok tt) /\ exists j, changed_one id j (f j) (jobs_of m) (jobs_of m'))
  \/ (r = RUnit (Err (JobNotFound id)) /\ m' = m /\ forall j, In j (jobs_of m) -> j_id j <> id).
Proof.
  intros Hp Hc Ho.
  assert (Hw : forall g nt,
    (forall j, In j (jobs_of m) -> g j = Some (f j)) ->
    let (m', r) := (let (m', r) := with_job m id g nt in (m', RUnit r)) in
    (r = RUnit (Ok tt) /\ exists j, changed_one id j (f j) (jobs_of m) (jobs_of m'))
    \/ (r = RUnit (Err (JobNotFound id)) /\ m' = m /\ forall j, In j (jobs_of m) -> j_id j <> id)).
  { intros g nt Hg. pose proof (with_job_spec m id g nt Hp) as H.
    destruct (with_job m id g nt) as [m' [[]|er|]].
    - destruct H as [pre [k [post [j' [H1 [H2 [H3 [H4 ->]]]]]]]]. left. split; [reflexivity|].
      rewrite Hg in H4 by (apply in_map; rewrite H1; apply in_mid; auto). injection H4 as <-.
      exists (kj_job k), (map kj_job pre), (map kj_job post).
      unfold jobs_of. rewrite H1. cbn zeta.
      destruct nt; rewrite ?notify_jobs; cbn [set_jobs m_jobs]; rewrite !map_app_cons;
        repeat split; auto; intros x Hx; apply in_map_iff in Hx; destruct Hx as [kx [<- Hx]]; auto.
    - destruct H as [-> [-> H]]. right. repeat split; auto. intros j Hj.
      apply in_map_iff in Hj. destruct Hj as [k [<- Hk]]. auto.
    - exfalso. destruct H as [_ [pre [k [post [H1 [_ [_ H]]]]]]].
      rewrite Hg in H by (apply in_map; rewrite H1; apply in_mid; auto). discriminate. }
  destruct o; cbn in Ho; try discriminate; injection Ho as <- <-; cbn [mem_step]; apply Hw; intros j Hj.
  - rewrite job_complete_spec. reflexivity.
  - rewrite job_retryable_spec. reflexivity.
  - rewrite job_discarded_spec. reflexivity.
  - rewrite job_cancelled_spec. reflexivity.
  - pose proof (Hc j Hj) as H. destruct (job_snoozed p t j) as [j'|] eqn:E.
    + apply job_snoozed_spec in E; [congruence | lia].
    + apply job_snoozed_none in E. lia.
  - pose proof (Hc j Hj) as H. destruct (job_rerunable p now j) as [j'|] eqn:E.
    + apply job_rerunable_spec in E; [congruence | lia].
    + apply job_rerunable_none in E. lia.
Qed.

Lemma exactly_filter {A} (P : A -> Prop) (f : A -> bool) l :
  (forall x, f x = true <-> ~ P x) -> (forall x, f x = false -> P x) ->
  exactly_removed P l (filter f l).
Proof.
  intros H1 H2. split; [apply retained_filter; exact H2|].
  intros x Hx. apply filter_In in Hx. apply H1. apply Hx.
Qed.

Lemma retained_map {A B} (g : A -> B) (P : B -> Prop) l l' :
  retained (fun x => P (g x)) l l' -> retained P (map g l) (map g l').
Proof. induction 1; cbn; constructor; auto. Qed.

Lemma query_lemma p now m q :
  m_poisoned m = false ->
  exists l, mem_step p now m (OpQuery q) = (m, RJobs (Ok l))
    /\ exactly_removed (fun j => ~ sat q j) (jobs_of m) l.
Proof.
  intro Hp. cbn [mem_step]. unfold mem_query, matching_jobs. rewrite Hp. eexists. split; [reflexivity|].
  split.
  - apply retained_map with (P := fun j => ~ sat q j). apply retained_filter. intros k Hk.
    rewrite <- query_matches_sat. congruence.
  - intros j Hj. apply in_map_iff in Hj. destruct Hj as [k [<- Hk]]. apply filter_In in Hk.
    rewrite <- query_matches_sat. intro H. apply H. apply Hk.
Qed.

Lemma age_prune_lemma p now m ps d m' :
  ps_by ps = MaxAge d ->
  mem_step p now m (OpPrune ps) = (m', RUnit (Ok tt)) ->
  exactly_removed
    (fun j => in_scope ps j /\ (j_scheduled_at j <= now - d \/ now + d <= j_scheduled_at j))
    (jobs_of m) (jobs_of m').
Proof.
  intros Hd Hs. cbn [mem_step] in Hs. unfold mem_prune in Hs. rewrite Hd in Hs.
  destruct (m_poisoned m); [discriminate|].
  unfold dt_sub, dt_add in Hs.
  destruct (in_dt (now - d)); [|discriminate]. destruct (in_dt (now + d)); [|discriminate].
  injection Hs as <-. unfold jobs_of. cbn [set_jobs m_jobs].
  assert (Hiff : forall k, negb (prune_matches ps (kj_job k))
            || (j_scheduled_at (kj_job k) <? now + d) && (now - d <? j_scheduled_at (kj_job k)) = true
          <-> ~ (in_scope ps (kj_job k) /\
                 (j_scheduled_at (kj_job k) <= now - d \/ now + d <= j_scheduled_at (kj_job k)))).
  { intro k. rewrite <- in_scope_spec. destruct (prune_matches ps (kj_job k)); cbn; [|intuition discriminate].
    lia. }
  split.
  - apply retained_map with (P := fun j => in_scope ps j /\ (j_scheduled_at j <= now - d \/ now + d <= j_scheduled_at j)).
    apply retained_filter. intros k Hk.
    rewrite <- in_scope_spec. destruct (prune_matches ps (kj_job k)); cbn in Hk; [|discriminate].
    split; [reflexivity|]. lia.
  - intros j Hj. apply in_map_iff in Hj. destruct Hj as [k [<- Hk]]. apply filter_In in Hk.
    apply Hiff. apply Hk.
Qed.

Lemma retain_max_length_split ps n l : forall c,
  exists a b a', l = a ++ b /\ retain_max_length ps n c l = a' ++ b
    /\ exactly_removed (fun k => in_scope ps (kj_job k)) a a'
    /\ ((c + Z.of_nat (length (filter (fun k => prune_matches ps (kj_job k)) a)) = n)
        \/ (c + Z.of_nat (length (filter (fun k => prune_matches ps (kj_job k)) a)) < n /\ b = [])
        \/ (n <= c /\ a = [])).
Proof.
  induction l as [|k l IH]; intro c; cbn [retain_max_length].
  - exists [], [], []. cbn. split; [reflexivity|]. split; [reflexivity|].
    split; [split; [apply ret_nil | intros x []] |].
    destruct (Z.lt_ge_cases c n); right; [left | right]; (split; [lia | reflexivity]).
  - destruct (Z.le_gt_cases n c) as [Hle|Hgt].
    + exists [], (k :: l), []. cbn [app filter length]. split; [reflexivity|].
      split; [|split; [split; [apply ret_nil | intros x []] | right; right; auto]].
      assert (Hall : forall c' l', n <= c' -> retain_max_length ps n c' l' = l').
      { intros c' l'. revert c'. induction l' as [|x l' IHl]; intros c' Hc'; cbn; [reflexivity|].
        destruct (prune_matches ps (kj_job x)); [|rewrite IHl; auto].
        replace (n <? c' + 1) with true by lia. rewrite IHl; [reflexivity | lia]. }
      destruct (prune_matches ps (kj_job k)); [|rewrite Hall; auto].
      replace (n <? c + 1) with true by lia. rewrite Hall; [reflexivity | lia].
    + destruct (prune_matches ps (kj_job k)) eqn:E.
      * replace (n <? c + 1) with false by lia.
        destruct (IH (c + 1)) as [a [b [a' [H1 [H2 [[H3 H3'] H4]]]]]].
        exists (k :: a), b, a'. rewrite H2, H1. cbn [app filter]. rewrite E. cbn [length].
        split; [reflexivity|]. split; [reflexivity|]. split.
        -- split; [|exact H3']. apply ret_drop; [apply in_scope_spec; exact E | exact H3].
        -- destruct H4 as [H4|[H4|[H4 ->]]]; [lia | right; left; split; [lia | tauto] |].
           left. cbn. lia.
      * destruct (IH c) as [a [b [a' [H1 [H2 [[H3 H3'] H4]]]]]].
        destruct H4 as [H4|[H4|H4]].
        -- exists (k :: a), b, (k :: a'). rewrite H2, H1. cbn [app filter]. rewrite E.
           split; [reflexivity|]. split; [reflexivity|]. split; [|left; exact H4].
           split; [apply ret_keep; exact H3|]. intros x [<-|Hx]; [|auto].
           rewrite <- in_scope_spec. congruence.
        -- exists (k :: a), b, (k :: a'). rewrite H2, H1. cbn [app filter]. rewrite E.
           split; [reflexivity|]. split; [reflexivity|]. split; [|right; left; exact H4].
           split; [apply ret_keep; exact H3|]. intros x [<-|Hx]; [|auto].
           rewrite <- in_scope_spec. congruence.
        -- lia.
Qed.

Lemma exactly_removed_map {A B} (g : A -> B) (P : B -> Prop) l l' :
  exactly_removed (fun x => P (g x)) l l' -> exactly_removed P (map g l) (map g l').
Proof.
  intros [H1 H2]. split; [apply retained_map; exact H1|].
  intros x Hx. apply in_map_iff in Hx. destruct Hx as [y [<- Hy]]. auto.
Qed.

Lemma length_prune_lemma p now m ps n m' :
  0 <= n -> ps_by ps = MaxLength n ->
  mem_step p now m (OpPrune ps) = (m', RUnit (Ok tt)) ->
  exists a b a', jobs_of m = a ++ b /\ jobs_of m' = a' ++ b
    /\ exactly_removed (in_scope ps) a a'
    /\ exists removed, NoDup removed /\ (forall i, In i removed <-> (i < length a)%nat /\
             exists j, nth_error a i = Some j /\ in_scope ps j)
       /\ (Z.of_nat (length removed) = n \/ (Z.of_nat (length removed) < n /\ b = [])).
Proof.
  intros Hn Hd Hs. cbn [mem_step] in Hs. unfold mem_prune in Hs. rewrite Hd in Hs.
  destruct (m_poisoned m); [discriminate|]. injection Hs as <-. unfold jobs_of. cbn [set_jobs m_jobs].
  destruct (retain_max_length_split ps n (m_jobs m) 0) as [a [b [a' [H1 [H2 [H3 H4]]]]]].
  exists (map kj_job a), (map kj_job b), (map kj_job a'). rewrite H2, !map_app.
  rewrite <- map_app, <- H1. split; [reflexivity|]. split; [reflexivity|].
  split; [apply exactly_removed_map with (P := in_scope ps); exact H3|].
  exists (map fst (filter (fun ix => prune_matches ps (snd ix)) (number 0 (map kj_job a)))).
  assert (Hlen : forall (l : list job) i, length (filter (fun ix => prune_matches ps (snd ix)) (number i l))
                                = length (filter (prune_matches ps) l)).
  { induction l as [|x l IH]; intro i; cbn; [reflexivity|].
    destruct (prune_matches ps x); cbn; rewrite IH; reflexivity. }
  split; [|split].
  - assert (Hg : forall (l : list job) i, NoDup (map fst (filter (fun ix => prune_matches ps (snd ix)) (number i l)))
            /\ forall x, In x (map fst (filter (fun ix => prune_matches ps (snd ix)) (number i l))) -> (i <= x)%nat).
    { induction l as [|x l IH]; intro i; cbn; [split; [constructor | intros x []]|].
      destruct (IH (S i)) as [I1 I2].
      destruct (prune_matches ps x); cbn; [|split; [exact I1 | intros y Hy; apply I2 in Hy; lia]].
      split.
      - constructor; [|exact I1]. intro Hin. apply I2 in Hin. lia.
      - intros y [<-|Hy]; [lia | apply I2 in Hy; lia]. }
    apply (proj1 (Hg (map kj_job a) 0%nat)).
  - intro i. rewrite in_map_iff. split.
    + intros [[i' x] [Hi Hx]]. cbn in Hi. subst i'. apply filter_In in Hx. destruct Hx as [Hx Hm].
      apply number_in in Hx. destruct Hx as [k [-> Hx]]. cbn in *. split.
      * apply nth_error_Some. congruence.
      * exists x. split; [exact Hx | apply in_scope_spec; exact Hm].
    + intros [Hi [x [Hx Hm]]]. exists (i, x). split; [reflexivity|]. apply filter_In. split.
      * apply number_in. exists i. auto.
      * apply in_scope_spec. exact Hm.
  - rewrite map_length, Hlen, filter_map_length.
    destruct H4 as [H4|[[H4 ->]|[H4 ->]]].
    + left. lia.
    + right. split; [lia | reflexivity].
    + left. cbn. lia.
Qed.

Lemma prune_scope_lemma p now m ps m' r :
  mem_step p now m (OpPrune ps) = (m', r) ->
  retained (in_scope ps) (jobs_of m) (jobs_of m').
Proof.
  intro Hs. cbn [mem_step] in Hs. unfold mem_prune in Hs.
  assert (Hrefl : retained (in_scope ps) (jobs_of m) (jobs_of m))
    by (induction (jobs_of m); constructor; auto).
  destruct (m_poisoned m); [injection Hs as <- _; exact Hrefl|].
  destruct (ps_by ps) as [d|n].
  - destruct (dt_sub now d), (dt_add now d); injection Hs as <- _; try exact Hrefl.
    unfold jobs_of. cbn [set_jobs m_jobs]. apply retained_map with (P := in_scope ps).
    apply retained_filter. intros k Hk. apply orb_false_iff in Hk. destruct Hk as [Hk _].
    apply negb_false_iff in Hk. apply in_scope_spec. exact Hk.
  - injection Hs as <- _. unfold jobs_of. cbn [set_jobs m_jobs].
    apply retained_map with (P := in_scope ps). apply retained_max_length.
Qed.
