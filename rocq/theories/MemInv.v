(** A statement about one job that every operation preserves holds at every later point of a
    history; used for the payload of a job (C47, C62). *)
From Verif Require Import Base Chrono Types TypesProofs Query Memory MemSpec QueryProofs MemProofs
  MemHist MemHist2.

Definition all_id (P : job -> Prop) (id : Z) (l : list kjob) : Prop :=
  forall k, In k l -> j_id (kj_job k) = id -> P (kj_job k).

Record preserved (p : profile) (P : job -> Prop) (id : Z) (now : time) (o : mop) : Prop := {
  pr_conflict : forall e j, o = OpEnqueue e -> j_id j = id -> P j -> P (after_conflict e j);
  pr_load : forall ex j j', o = OpLoad ex -> due now ex j -> j_id j = id ->
      job_executing p now j = Some j' -> P j -> P j';
  pr_one : forall j j', one_effect p now o id j j' -> j_id j = id -> P j -> P j'
}.

Lemma jstep_all_id p (P : job -> Prop) now o r l l' id n :
  jstep p now o r l l' -> (forall e i, o = OpEnqueue e -> r = RId (Ok i) -> ~ In i (ids l) -> ~ drawn n i) ->
  NoDup (ids l') -> drawn n id -> preserved p P id now o -> all_id P id l -> all_id P id l'.
Proof.
  intros Hj Hfresh Hnd' Hd Hpr Hall k Hk Hid.
  destruct Hj as [o r l H|e i l H|e pre k0 post H H0|ex pre k0 post j' H H0|o i pre k0 post j' H H0 H1|ps l l' H].
  - auto.
  - apply in_app_or in Hk. destruct Hk as [Hk|[<-|[]]]; [auto|].
    exfalso. cbn in Hid. subst i. apply (Hfresh e id eq_refl eq_refl); [|exact Hd].
    unfold ids in Hnd'. rewrite map_app in Hnd'. cbn in Hnd'. apply NoDup_remove_2 in Hnd'.
    rewrite app_nil_r in Hnd'. exact Hnd'.
  - apply in_mid in Hk. destruct Hk as [->|Hk]; [|apply Hall; [apply in_mid; auto | exact Hid]].
    cbn in *. rewrite after_conflict_id in Hid.
    apply (pr_conflict _ _ _ _ _ Hpr); auto. apply Hall; [apply in_mid; auto | exact Hid].
  - apply in_mid in Hk. destruct Hk as [->|Hk]; [|apply Hall; [apply in_mid; auto | exact Hid]].
    cbn in *. pose proof (job_executing_id _ _ _ _ H0) as Hid'. rewrite Hid' in Hid.
    eapply (pr_load _ _ _ _ _ Hpr); eauto. apply Hall; [apply in_mid; auto | exact Hid].
  - apply in_mid in Hk. destruct Hk as [->|Hk]; [|apply Hall; [apply in_mid; auto | exact Hid]].
    cbn in *. pose proof (one_effect_id _ _ _ _ _ _ H H0) as Hid'.
    assert (Hi : i = id) by congruence. rewrite Hi in H.
    eapply (pr_one _ _ _ _ _ Hpr); [exact H | congruence |]. apply Hall; [apply in_mid; auto | congruence].
  - apply Hall; [eapply retained_in; eassumption | exact Hid].
Qed.

Lemma step_all_id p (P : job -> Prop) now o m n id :
  id_inv n m -> n + weight o <= 4294967296 -> drawn n id -> preserved p P id now o ->
  all_id P id (m_jobs m) -> all_id P id (m_jobs (fst (mem_step p now m o))).
Proof.
  intros Hi Hw Hd Hpr Hall.
  destruct (id_inv_step p now m o n Hi ltac:(lia)) as [n' [Hn' Hi']].
  pose proof (mem_step_jstep p now m o (ii_nodup _ _ Hi)) as Hj.
  pose proof (mem_step_next p now m o) as Hs. cbn zeta in Hs.
  destruct (mem_step p now m o) as [m' r] eqn:E. cbn [fst snd] in *.
  eapply (jstep_all_id p P now o r _ _ id n Hj); auto.
  - intros e i -> -> Hni. destruct (jstep_rid _ _ _ _ _ _ Hj) as [Hin|Hl']; [contradiction|].
    destruct Hs as [[_ Hs]|[e' [_ [_ [[Hs _]|[Hs Hr]]]]]].
    + exfalso. rewrite Hl', app_length in Hs. cbn in Hs. lia.
    + exfalso. rewrite Hl' in Hs. apply (f_equal (@length kjob)) in Hs. rewrite app_length in Hs.
      cbn in Hs. lia.
    + injection Hr as ->. pose proof (ii_next _ _ Hi) as Hnx. rewrite Hnx.
      apply drawn_fresh. pose proof (ii_n _ _ Hi). cbn [weight] in Hw. lia.
  - exact (ii_nodup _ _ Hi').
Qed.

Lemma history_all_id p (P : job -> Prop) id h : forall m n,
  id_inv n m -> n + weights h <= 4294967296 -> drawn n id ->
  (forall now o, In (now, o) h -> preserved p P id now o) ->
  all_id P id (m_jobs m) -> all_id P id (m_jobs (mem_run p m h)).
Proof.
  induction h as [|[now o] h IH]; intros m n Hi Hw Hd Hpr Hall; cbn [mem_run weights] in *; [exact Hall|].
  pose proof (weights_nonneg h).
  destruct (id_inv_step p now m o n Hi ltac:(lia)) as [n' [Hn' Hi']].
  apply (IH _ n' Hi'); [lia | eapply drawn_mono; [|exact Hd]; lia | |].
  - intros t o' Ho. apply (Hpr t o'). right. exact Ho.
  - apply (step_all_id p P now o m n id Hi); auto; [lia|]. apply Hpr. left. reflexivity.
Qed.

(** A job handed out is in the store afterwards. *)
Lemma load_in_store p now m ex m' j :
  NoDup (ids (m_jobs m)) -> mem_step p now m (OpLoad ex) = (m', RJob (Ok (Some j))) ->
  In j (jobs_of m').
Proof.
  intros Hnd Hs. pose proof (mem_step_jstep p now m (OpLoad ex) Hnd) as Hj. rewrite Hs in Hj.
  remember (OpLoad ex) as o eqn:Eo. remember (RJob (Ok (Some j))) as r eqn:Er.
  unfold jobs_of. remember (m_jobs m) as l. remember (m_jobs m') as l'.
  destruct Hj as [o r l0 H|e i l0 H|e pre k0 post H H0|ex0 pre k0 post j' H H0|o i pre k0 post j' H H0 H1|ps l0 l0' H];
    try discriminate.
  - subst. cbn in H. contradiction.
  - injection Er as ->. rewrite map_app. cbn. apply in_or_app. right. left. reflexivity.
Qed.

Lemma nodup_map_eq {A} (f : A -> Z) l x y :
  NoDup (map f l) -> In x l -> In y l -> f x = f y -> x = y.
Proof.
  intros Hn Hx Hy He. apply in_split in Hx. destruct Hx as [l1 [l2 ->]].
  apply in_split in Hy. destruct Hy as [l1' [l2' Hy]].
  destruct (nodup_app_unique f _ _ _ _ _ _ Hn Hy He) as [_ [H _]]. exact H.
Qed.

(** What a request says about a job, apart from its schedule and number of attempts. *)
Definition same_payload (j j' : job) : Prop :=
  j_data j' = j_data j /\ j_metadata j' = j_metadata j /\ j_executor j' = j_executor j
  /\ j_priority j' = j_priority j /\ j_tags j' = j_tags j /\ j_inserted_at j' = j_inserted_at j.

Lemma payload_preserved p j0 id now o :
  ~ replacing_enqueue o -> (forall j, o = OpUpdate j -> j_id j <> id) ->
  preserved p (same_payload j0) id now o.
Proof.
  intros Hr Hu. split.
  - intros e j -> _ Hj. unfold after_conflict. destruct (eq_criteria e) as [uq|] eqn:E; [|exact Hj].
    destruct (uc_on_conflict uq) as [|r] eqn:Er; [exact Hj|].
    exfalso. apply Hr. exists uq, r. auto.
  - intros ex j j' -> _ _ H Hj. unfold job_executing in H. destruct (i32_arith _ _); [|discriminate].
    injection H as <-. exact Hj.
  - intros j j' H Hid Hj. destruct H; try exact Hj.
    + unfold job_snoozed in H. destruct (i32_arith _ _); [|discriminate]. injection H as <-. exact Hj.
    + unfold job_rerunable in H. destruct (i32_arith _ _); [|discriminate]. injection H as <-. exact Hj.
    + exfalso. exact (Hu j' eq_refl eq_refl).
Qed.

Lemma history_payload p h1 h2 m j j' :
  reached p h1 m -> enqueues h1 + enqueues h2 <= 4294967296 -> In j (jobs_of m) ->
  (forall t o, In (t, o) h2 -> ~ replacing_enqueue o /\ (forall x, o = OpUpdate x -> j_id x <> j_id j)) ->
  In j' (jobs_of (mem_run p m h2)) -> j_id j' = j_id j -> same_payload j j'.
Proof.
  intros Hr Hw Hj Hall Hj' Hid. destruct (reached_id_inv _ _ _ Hr) as [n [Hn Hi]].
  apply in_map_iff in Hj. destruct Hj as [k [<- Hk]].
  apply in_map_iff in Hj'. destruct Hj' as [k' [<- Hk']].
  refine (history_all_id p (same_payload (kj_job k)) (j_id (kj_job k)) h2 m n Hi _ _ _ _ k' Hk' Hid).
  - rewrite weights_enqueues. lia.
  - apply (ii_drawn _ _ Hi). apply ids_in. exact Hk.
  - intros t o Ho. destruct (Hall t o Ho) as [H1 H2]. apply payload_preserved; auto.
  - intros x Hx Hxid. assert (x = k) as ->; [|unfold same_payload; auto 10].
    apply (nodup_map_eq _ _ _ _ (ii_nodup _ _ Hi)); auto.
Qed.
