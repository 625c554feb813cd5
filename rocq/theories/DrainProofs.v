(** How much work is left in the store, and that it only shrinks. *)
From Verif Require Import Base Chrono Types TypesProofs Query Memory MemSpec QueryProofs MemProofs MemHist MemHist2
  MemInv Codec Runner RunnerSpec WorkerProofs SysProofs.

(** Executions to a result that the job may still have: the running one and those it may be given. *)
Definition results_left (j : job) : Z :=
  match j_status j with
  | Scheduled | Retryable => j_max_attempts j - j_attempt j
  | Executing => j_max_attempts j - j_attempt j + 1
  | Complete | Cancelled | Discarded => 0
  end.
Definition total (f : job -> Z) (l : list job) : Z := fold_right (fun j n => f j + n) 0 l.
Definition work_left (s : sys) : Z := total results_left (jobs_of (s_mem s)).
(** Attempts asked for by the requests of a history. *)
Definition attempts_asked (es : list sevent) : Z :=
  fold_right (fun ev n => match ev with SOp _ (OpEnqueue e) => eq_max_attempts e + n | _ => n end) 0 es.
(** The results among some outcomes. *)
Definition results_in (log : list (Z * outcome)) : Z :=
  Z.of_nat (length (filter (fun x => negb (is_snooze (snd x))) log)).
Definition reruns_nothing (es : list sevent) : Prop := forall now id, ~ In (SOp now (OpRerun id)) es.

Lemma total_app f l l' : total f (l ++ l') = total f l + total f l'.
Proof. induction l as [|x l IH]; cbn; [reflexivity|]. unfold total in *. rewrite IH. lia. Qed.
Lemma total_mid f l x l' : total f (l ++ x :: l') = total f l + f x + total f l'.
Proof. rewrite total_app. cbn. fold (total f l'). lia. Qed.

Section S.
  Context {D M : Type}.
  Variable c : codec D M.
  Variable fns : executor_fns D M.
  Variable show : Z -> string.
  Variable p : profile.
  Notation sstep := (sys_step c fns show p).
  Notation orun := (orderly_run c fns show p).
  Notation inv := (sinv c fns show p).

  (** What a report does. *)
  Lemma report_effect es s now1 now2 now i o s' :
    inv es s -> sstep s (SReport now1 now2 now i o) = Some s' ->
    exists x op pre k post j',
      report show now1 now2 x o = Some op
      /\ m_jobs (s_mem s) = pre ++ k :: post /\ m_jobs (s_mem s') = pre ++ mk_kjob j' (kj_key k) :: post
      /\ one_effect p now op (x_id x) (kj_job k) j' /\ j_id (kj_job k) = x_id x /\ j_status (kj_job k) = Executing
      /\ s_log s' = (x_id x, o) :: s_log s.
  Proof.
    intros I Hs. unfold sys_step in Hs.
    destruct (nth_error (s_held s) i) as [[hj [x|]]|] eqn:En; try discriminate.
    destruct (report show now1 now2 x o) as [op|] eqn:Er; [|discriminate]. injection Hs as <-.
    destruct (report_op _ _ _ _ _ _ Er) as [Hw [Hage Hop]].
    destruct (si_n _ _ _ _ _ _ I) as [n0 [Hn0 [Hi0 Hd0]]].
    set (h0 := mk_holding hj (Some x)) in *.
    assert (Hh0 : In h0 (s_held s)) by (eapply nth_error_In; exact En).
    destruct (si_held _ _ _ _ _ _ I h0 Hh0) as [k [Hk [F1 [F2 [F3 [F4 F5]]]]]].
    destruct (F5 x eq_refl) as [X1 X2]. cbn [h_job h0] in F3, F4, X2.
    assert (Xid : x_id x = j_id (kj_job k)) by congruence.
    pose proof (mem_step_jstep p now (s_mem s) op (ii_nodup _ _ Hi0)) as Hj.
    assert (Hres : snd (mem_step p now (s_mem s) op) = RUnit (Ok tt)).
    { assert (Hwj : forall f nt, (forall k, In k (m_jobs (s_mem s)) -> f (kj_job k) <> None) ->
        snd (let (m', r) := with_job (s_mem s) (x_id x) f nt in (m', RUnit r)) = RUnit (Ok tt)).
      { intros f nt Hf. destruct (with_job_unpoisoned (s_mem s) (x_id x) f nt (si_ok _ _ _ _ _ _ I) Hf) as [_ Hr].
        pose proof (with_job_spec (s_mem s) (x_id x) f nt (si_ok _ _ _ _ _ _ I)) as Hsp.
        destruct (with_job (s_mem s) (x_id x) f nt) as [m1 r1]. cbn in Hr. destruct Hr as [->| ->]; [reflexivity|].
        destruct Hsp as [_ [_ Hsp]]. destruct (Hsp k Hk). auto. }
      destruct Hop as [->|[[t [e ->]]|[[e ->]|[[e ->]|[t ->]]]]]; cbn [mem_step]; apply Hwj; try discriminate.
      intros k0 Hk0 Hno. apply job_snoozed_none in Hno. pose proof (sinv_bounds _ _ _ _ es s I k0 Hk0). lia. }
    destruct (mem_step p now (s_mem s) op) as [m' r]. cbn [fst snd] in *. subst r.
    remember (m_jobs (s_mem s)) as l eqn:El. remember (m_jobs m') as l' eqn:El'.
    remember (RUnit (Ok tt)) as r eqn:Err.
    destruct Hj as [o1 r l H|e i0 l H|e pre k0 post H H0|ex pre k0 post j' H H0|o1 i0 pre k0 post j' H H0 H1|ps l l' H];
      try discriminate.
    - exfalso. subst r. destruct Hop as [->|[[t [e ->]]|[[e ->]|[[e ->]|[t ->]]]]]; cbn in H; contradiction.
    - assert (Ei0 : i0 = x_id x).
      { destruct Hop as [->|[[t [e ->]]|[[e ->]|[[e ->]|[t ->]]]]]; inversion H; congruence. }
      assert (k0 = k) as ->.
      { apply (nodup_map_eq (fun k => j_id (kj_job k)) (m_jobs (s_mem s))).
        - exact (ii_nodup _ _ Hi0).
        - rewrite <- El. apply in_mid. auto.
        - rewrite <- El. exact Hk.
        - congruence. }
      exists x, o1, pre, k, post, j'. cbn [s_mem s_log]. rewrite <- El'. subst i0. rewrite Ei0 in H. repeat match goal with |- _ /\ _ => split end; auto.
    - exfalso. destruct Hop as [Ho|[[t [e Ho]]|[[e Ho]|[[e Ho]|[t Ho]]]]]; discriminate.
  Qed.

  Lemma attempts_between es s k : inv es s -> In k (m_jobs (s_mem s)) -> 0 <= j_attempt (kj_job k) <= j_max_attempts (kj_job k).
  Proof. intros I Hk. destruct (si_fine _ _ _ _ _ _ I k Hk) as [mx [_ F]]. rewrite (fi_max _ _ _ _ _ F). exact (fi_range _ _ _ _ _ F). Qed.
  Lemma left_nonneg j : 0 <= j_attempt j <= j_max_attempts j -> 0 <= results_left j.
  Proof. unfold results_left. destruct (j_status j); lia. Qed.
  Lemma total_nonneg l : (forall k, In k l -> 0 <= j_attempt (kj_job k) <= j_max_attempts (kj_job k)) ->
    0 <= total results_left (map kj_job l).
  Proof.
    induction l as [|k l IH]; intro H; cbn; [lia|]. pose proof (left_nonneg (kj_job k) (H k (or_introl eq_refl))).
    specialize (IH (fun x Hx => H x (or_intror Hx))). unfold total in IH. lia.
  Qed.
  Lemma total_retained P l l' : retained P l l' ->
    (forall k, In k l -> 0 <= j_attempt (kj_job k) <= j_max_attempts (kj_job k)) ->
    total results_left (map kj_job l') <= total results_left (map kj_job l).
  Proof.
    induction 1 as [|y l l' H IH|y l l' Hy H IH]; intro Hb; cbn; [lia| |];
      specialize (IH (fun x Hx => Hb x (or_intror Hx))); unfold total in *; [lia|].
    pose proof (left_nonneg (kj_job y) (Hb y (or_introl eq_refl))). lia.
  Qed.

  Lemma work_step es s ev s' :
    inv es s -> orderly s ev -> (forall now id, ev <> SOp now (OpRerun id)) -> sstep s ev = Some s' ->
    exists new, s_log s' = new ++ s_log s /\ results_in new + work_left s' <= work_left s + attempts_asked [ev].
  Proof.
    intros I Ho Hr Hs. pose proof (attempts_between es s) as Hb. destruct (si_n _ _ _ _ _ _ I) as [n0 [_ [Hi0 _]]].
    destruct ev as [now o|now ex|now1 now2 now i o].
    - cbn [sys_step] in Hs. injection Hs as <-. exists []. split; [reflexivity|]. cbn [results_in filter length].
      change (results_in []) with 0. rewrite Z.add_0_l. unfold work_left. cbn [s_mem].
      pose proof (mem_step_jstep p now (s_mem s) o (ii_nodup _ _ Hi0)) as Hj.
      destruct (mem_step p now (s_mem s) o) as [m' r]. cbn [fst snd] in *. unfold jobs_of.
      assert (Hb' : forall k, In k (m_jobs (s_mem s)) -> 0 <= j_attempt (kj_job k) <= j_max_attempts (kj_job k)) by (intros k Hk; exact (Hb k I Hk)).
      remember (m_jobs (s_mem s)) as l eqn:El. remember (m_jobs m') as l' eqn:El'.
      destruct Hj as [o1 r l H|e i0 l H|e pre k0 post H H0|ex pre k0 post j' H H0|o1 i0 pre k0 post j' H H0 H1|ps l l' H];
        cbn [orderly] in Ho.
      + destruct o1; cbn [attempts_asked fold_right]; lia.
      + cbn [attempts_asked fold_right]. rewrite map_app, total_app. cbn. lia.
      + rewrite !map_app. cbn [map kj_job]. rewrite !total_mid. cbn [attempts_asked fold_right].
        assert (results_left (after_conflict e (kj_job k0)) = results_left (kj_job k0)).
        { destruct Ho as [_ Ho]. destruct (after_conflict_same e (kj_job k0) Ho) as [E1 [E2 [E3 [E4 E5]]]].
          unfold results_left. rewrite E2, E3, E4. reflexivity. }
        lia.
      + destruct Ho.
      + rewrite !map_app. cbn [map kj_job]. rewrite !total_mid.
        assert (results_left j' <= results_left (kj_job k0)).
        { pose proof (left_nonneg (kj_job k0) (Hb' k0 (proj2 (in_mid _ _ _ _) (or_introl eq_refl)))).
          inversion H; subst; cbn [orderly] in Ho; try contradiction; [exact H2|].
          destruct (Hr now (j_id (kj_job k0))). reflexivity. }
        destruct o1; cbn [attempts_asked fold_right] in *; lia.
      + cbn [attempts_asked fold_right]. rewrite Z.add_0_r. eapply total_retained; eassumption.
    - exists []. unfold sys_step in Hs. pose proof (mem_load_spec p now (s_mem s) ex (si_ok _ _ _ _ _ _ I)) as Hl.
      change (results_in []) with 0. cbn [attempts_asked fold_right]. unfold work_left, jobs_of.
      destruct (mem_load p now (s_mem s) ex) as [m' [[j|]|er|]] eqn:E; injection Hs as <-; cbn [s_log s_mem app]; (split; [reflexivity|]).
      + destruct Hl as [pre [k [post [El [Hdue [Hx [Hm' _]]]]]]]. subst m'. cbn [set_jobs m_jobs].
        assert (Hin : In k (m_jobs (s_mem s))) by (rewrite El; apply in_mid; auto).
        pose proof (sinv_bounds _ _ _ _ es s I k Hin) as Hbd.
        assert (j = after_hand_out now (kj_job k)) as -> by (eapply job_executing_ok; [|exact Hx]; lia).
        rewrite El, !map_app. cbn [map kj_job]. rewrite !total_mid.
        assert (results_left (after_hand_out now (kj_job k)) = results_left (kj_job k)).
        { destruct Hdue as [_ [[Hw|Hw] _]]; unfold results_left; rewrite Hw; cbn; lia. }
        lia.
      + destruct Hl as [-> _]. lia.
      + destruct Hl.
      + destruct Hl as [-> _]. cbn [poison m_jobs]. lia.
    - destruct (report_effect es s now1 now2 now i o s' I Hs) as (x & op & pre & k & post & j' & Hrep & El & El' & He & Hid & Hst & Hlog).
      exists [(x_id x, o)]. split; [exact Hlog|]. unfold work_left, jobs_of. rewrite El, El', !map_app. cbn [map kj_job].
      rewrite !total_mid. cbn [attempts_asked fold_right].
      assert (Hin : In k (m_jobs (s_mem s))) by (rewrite El; apply in_mid; auto).
      pose proof (Hb k I Hin) as Hk. pose proof (sinv_bounds _ _ _ _ es s I k Hin) as Hbd.
      assert (results_in [(x_id x, o)] + results_left j' <= results_left (kj_job k)); [|lia].
      assert (E0 : results_left (kj_job k) = j_max_attempts (kj_job k) - j_attempt (kj_job k) + 1) by (unfold results_left; rewrite Hst; reflexivity).
      assert (E1 : results_in [(x_id x, o)] = b2z (negb (is_snooze o))) by (unfold results_in; cbn; destruct (is_snooze o); reflexivity).
      rewrite E1.
      assert (Hsn : is_snooze o = true -> exists t, op = OpSnoozed (x_id x) t).
      { destruct o; try discriminate. intros _. cbn [report] in Hrep. destruct (dt_add now1 d); [|discriminate]. injection Hrep as <-. eauto. }
      assert (Hns : is_snooze o = false -> forall t, op <> OpSnoozed (x_id x) t).
      { intros En t ->. assert (Herr : forall e, report_error now1 now2 x e <> Some (OpSnoozed (x_id x) t)).
        { intros e. unfold report_error. destruct (x_final x); [discriminate|]. destruct (dt_add now1 _); [|discriminate].
          destruct (dt_add now2 _); discriminate. }
        destruct o as [|reason|d|e| |pl text|text]; cbn [report] in Hrep; try discriminate; try (now apply Herr in Hrep).
        - destruct reason; discriminate.
        - destruct e; [now apply Herr in Hrep|discriminate].
        - destruct (x_timeout x); [now apply Herr in Hrep|discriminate]. }
      destruct (is_snooze o) eqn:Eo; cbn [negb b2z].
      + destruct (Hsn eq_refl) as [t ->]. inversion He as [| | | |? ? ? ? Hj| |]; subst.
        apply job_snoozed_spec in Hj; [|lia]. subst j'. rewrite E0. unfold results_left, after_snoozed.
        cbn [j_status j_max_attempts j_attempt]. destruct (Z.eq_dec _ _); lia.
      + assert (0 <= j_max_attempts (kj_job k) - j_attempt (kj_job k)) by lia.
        destruct (report_op _ _ _ _ _ _ Hrep) as [_ [_ Hop]].
        inversion He; subst; try (exfalso; destruct Hop as [Ho1|[[t1 [e1 Ho1]]|[[e1 Ho1]|[[e1 Ho1]|[t1 Ho1]]]]]; discriminate);
          rewrite E0;
          try match goal with |- _ + results_left ?j <= _ =>
            let v := eval cbn in (results_left j) in change (results_left j) with v; lia end.
        exfalso. eapply Hns; reflexivity.
  Qed.

  Lemma asked_cons ev es : attempts_asked (ev :: es) = attempts_asked [ev] + attempts_asked es.
  Proof. unfold attempts_asked. cbn [fold_right]. destruct ev as [now o| |]; [destruct o|..]; lia. Qed.
  Lemma results_in_app l l' : results_in (l ++ l') = results_in l + results_in l'.
  Proof. unfold results_in. rewrite filter_app, app_length. lia. Qed.

  (** Whole histories. *)
  Lemma work_run es : forall es0 s0 s,
    orun sys_init es0 s0 -> requests (es0 ++ es) <= 4294967296 -> orun s0 es s -> reruns_nothing es ->
    exists new, s_log s = new ++ s_log s0 /\ results_in new + work_left s <= work_left s0 + attempts_asked es.
  Proof.
    induction es as [|ev es IH]; intros es0 s0 s H0 Hq Hr Hn; inversion Hr as [|? ? s1 ? ? Ho Hs Hr1]; subst.
    - exists []. split; [reflexivity|]. change (results_in []) with 0. cbn [attempts_asked fold_right]. lia.
    - assert (Hq1 : requests (es0 ++ [ev]) <= 4294967296).
      { rewrite requests_app in *. change (ev :: es) with ([ev] ++ es) in Hq. rewrite requests_app in Hq.
        assert (0 <= requests es) by (unfold requests; lia). lia. }
      assert (H01 : orun sys_init (es0 ++ [ev]) s1) by (eapply orun_snoc; eassumption).
      assert (I1 : inv (es0 ++ [ev]) s1) by (now apply run_sinv).
      assert (I : inv es0 s0).
      { apply run_sinv; [exact H0|]. rewrite requests_app in Hq. assert (0 <= requests (ev :: es)) by (unfold requests; lia). lia. }
      destruct (work_step es0 s0 ev s1 I Ho) as [new [E1 H1]]; auto.
      { intros now id ->. apply (Hn now id). left. reflexivity. }
      destruct (IH (es0 ++ [ev]) s1 s H01) as [new' [E2 H2]]; auto.
      { rewrite <- app_assoc. exact Hq. }
      { intros now id Hin. apply (Hn now id). right. exact Hin. }
      exists (new' ++ new). rewrite E2, E1, app_assoc. split; [reflexivity|]. rewrite results_in_app, (asked_cons ev es). lia.
  Qed.

  Lemma work_nonneg es s : orun sys_init es s -> requests es <= 4294967296 -> 0 <= work_left s.
  Proof.
    intros H Hq. apply total_nonneg. intros k Hk. apply (attempts_between es s); [now apply run_sinv|exact Hk].
  Qed.
  Lemma orun_app s es s1 es' s' : orun s es s1 -> orun s1 es' s' -> orun s (es ++ es') s'.
  Proof. intros H H'. induction H as [s|s ev s2 es s1 Ho Hs _ IH]; [exact H'|]. econstructor; eauto. Qed.

  (** A store that nobody holds a job of and that has none to hand out has only finished jobs. *)
  Lemma idle_finished es s now : inv es s -> s_held s = [] ->
    (forall ex, snd (mem_load p now (s_mem s) ex) = Ok None) ->
    forall j, In j (jobs_of (s_mem s)) -> j_scheduled_at j - now < 100 * ns_per_ms -> finished j.
  Proof.
    intros I Hh Hl j Hj Ht. unfold jobs_of in Hj. apply in_map_iff in Hj. destruct Hj as [k [<- Hk]].
    destruct (status_cases (kj_job k)) as [Hw|[He|Hf]]; [exfalso|exfalso|exact Hf].
    - pose proof (mem_load_spec p now (s_mem s) (j_executor (kj_job k)) (si_ok _ _ _ _ _ _ I)) as Hsp.
      specialize (Hl (j_executor (kj_job k))). destruct (mem_load p now (s_mem s) _) as [m' r]. cbn [snd] in Hl. subst r.
      destruct Hsp as [_ Hsp]. apply (Hsp k Hk). split; [reflexivity|]. split; [exact Hw|exact Ht].
    - destruct (si_executing _ _ _ _ _ _ I k Hk He) as [h [Hin _]]. rewrite Hh in Hin. destruct Hin.
  Qed.

  (** The job can be started whenever it is handed out; every worker is executing what it holds. *)
  Definition startable (j : job) : Prop := forall now, exists x, begin_job c fns (after_hand_out now j) = Spawned x.
  Definition all_executing (s : sys) : Prop := forall h, In h (s_held s) -> h_exec h <> None.
  (** Workers take jobs and complete them, not before [T]. *)
  Definition working (T : time) (ev : sevent) : Prop :=
    match ev with
    | STake now _ => T <= now
    | SReport now1 now2 now _ o => T <= now1 /\ T <= now2 /\ T <= now /\ o = ODone
    | SOp _ _ => False
    end.
  Definition is_waiting (k : kjob) : bool :=
    match j_status (kj_job k) with Scheduled | Retryable => true | _ => false end.
  Definition to_do (s : sys) : nat := (2 * length (filter is_waiting (m_jobs (s_mem s))) + length (s_held s))%nat.
  Lemma is_waiting_iff k : is_waiting k = true <-> waiting (kj_job k).
  Proof. unfold is_waiting, waiting. destruct (j_status (kj_job k)); split; intro H; auto; try discriminate; destruct H; discriminate. Qed.

  Lemma can_finish n : forall T es s,
    (to_do s <= n)%nat -> orun sys_init es s -> requests es <= 4294967296 ->
    all_executing s -> (forall j, In j (jobs_of (s_mem s)) -> waiting j -> startable j) ->
    exists es' s', orun s es' s' /\ Forall (working T) es' /\ s_held s' = []
      /\ map j_id (jobs_of (s_mem s')) = map j_id (jobs_of (s_mem s))
      /\ forall j, In j (jobs_of (s_mem s')) -> finished j.
  Proof.
    induction n as [|n IH]; intros T es s Hn Hr Hq Hx Hst; pose proof (run_sinv _ _ _ _ es s Hr Hq) as I.
    - exists [], s. unfold to_do in Hn. assert (Hh : s_held s = []) by (destruct (s_held s); [reflexivity|cbn in Hn; lia]).
      split; [constructor|]. split; [constructor|]. split; [exact Hh|]. split; [reflexivity|].
      intros j Hj. unfold jobs_of in Hj. apply in_map_iff in Hj. destruct Hj as [k [<- Hk]].
      destruct (status_cases (kj_job k)) as [Hw|[He|Hf]]; [exfalso|exfalso|exact Hf].
      + apply is_waiting_iff in Hw. assert (Hin : In k (filter is_waiting (m_jobs (s_mem s)))) by (apply filter_In; auto).
        destruct (filter is_waiting _); [destruct Hin|cbn in Hn; lia].
      + destruct (si_executing _ _ _ _ _ _ I k Hk He) as [h [Hin _]]. rewrite Hh in Hin. destruct Hin.
    - destruct (s_held s) as [|h hs] eqn:Eh.
      + destruct (filter is_waiting (m_jobs (s_mem s))) as [|k l] eqn:Ew.
        { apply (IH T es s); auto. unfold to_do. rewrite Ew, Eh. cbn. lia. }
        assert (Hk : In k (m_jobs (s_mem s)) /\ waiting (kj_job k)).
        { rewrite <- is_waiting_iff. apply filter_In. rewrite Ew. left. reflexivity. }
        destruct Hk as [Hk Hw]. set (now := Z.max T (j_scheduled_at (kj_job k))). set (ex := j_executor (kj_job k)).
        assert (Hdue : due now ex (kj_job k)).
        { split; [reflexivity|]. split; [exact Hw|]. unfold now, time in *. lia. }
        pose proof (mem_load_spec p now (s_mem s) ex (si_ok _ _ _ _ _ _ I)) as Hl.
        destruct (mem_load p now (s_mem s) ex) as [m' r] eqn:El. destruct r as [[j|]|er|].
        * destruct Hl as [pre [k1 [post [E1 [Hd1 [Hx1 [Hm' _]]]]]]].
          assert (Hin : In k1 (m_jobs (s_mem s))) by (rewrite E1; apply in_mid; auto).
          pose proof (sinv_bounds _ _ _ _ es s I k1 Hin) as Hbd.
          assert (j = after_hand_out now (kj_job k1)) as -> by (eapply job_executing_ok; [|exact Hx1]; lia).
          assert (Hw1 : waiting (kj_job k1)) by (destruct Hd1 as [_ [H _]]; exact H).
          destruct (Hst (kj_job k1)) with (now := now) as [x Hb]; [unfold jobs_of; now apply in_map|exact Hw1|].
          set (s1 := mk_sys m' (s_held s ++ [mk_holding (after_hand_out now (kj_job k1)) (Some x)]) (s_log s)).
          assert (Hs1 : sstep s (STake now ex) = Some s1).
          { unfold sys_step. rewrite El, Hb. reflexivity. }
          assert (Ej : m_jobs m' = pre ++ mk_kjob (after_hand_out now (kj_job k1)) (kj_key k1) :: post) by (rewrite Hm'; reflexivity).
          destruct (IH T (es ++ [STake now ex]) s1) as (es' & s' & A1 & A2 & A3 & A4 & A5).
          -- unfold to_do in *. rewrite Eh in *. cbn [s1 s_mem s_held app length] in *. rewrite ?Eh, Ej.
             rewrite E1 in Hn. rewrite filter_app in *. cbn [filter] in *. rewrite app_length in *.
             rewrite (proj2 (is_waiting_iff k1) Hw1) in Hn. cbn [length] in Hn.
             change (is_waiting (mk_kjob (after_hand_out now (kj_job k1)) (kj_key k1))) with false. cbv iota. cbn [app length]. lia.
          -- eapply orun_snoc; [exact Hr|exact Logic.I|exact Hs1].
          -- rewrite requests_app. cbn. unfold requests in *. cbn. lia.
          -- intros h Hh. cbn [s1 s_held] in Hh. rewrite Eh in Hh. destruct Hh as [<-|[]]. discriminate.
          -- intros j Hj Hwj. cbn [s1 s_mem] in Hj. unfold jobs_of in Hj. rewrite Ej in Hj. apply in_map_iff in Hj.
             destruct Hj as [k2 [<- Hk2]]. apply in_mid in Hk2. destruct Hk2 as [->|Hk2].
             ++ destruct Hwj; discriminate.
             ++ apply Hst; [|exact Hwj]. unfold jobs_of. apply in_map. rewrite E1. apply in_mid. auto.
          -- exists (STake now ex :: es'), s'. split; [econstructor; [exact Logic.I|exact Hs1|exact A1]|].
             split; [constructor; [cbn; unfold now, time in *; lia|exact A2]|]. split; [exact A3|]. split; [|exact A5].
             rewrite A4. unfold jobs_of. cbn [s1 s_mem]. rewrite Ej, E1, !map_app. reflexivity.
        * destruct Hl as [_ Hl]. destruct (Hl k Hk Hdue).
        * destruct Hl.
        * exfalso. destruct Hl as [_ [k1 [Hk1 [_ Hno]]]]. apply job_executing_none in Hno.
          pose proof (sinv_bounds _ _ _ _ es s I k1 Hk1). lia.
      + assert (Hxh : h_exec h <> None) by (apply Hx; rewrite Eh; left; reflexivity).
        destruct h as [hj [x|]]; [|destruct Hxh; reflexivity].
        set (s1 := mk_sys (fst (mem_step p T (s_mem s) (OpComplete (x_id x)))) hs ((x_id x, ODone) :: s_log s)).
        assert (Hs1 : sstep s (SReport T T T 0 ODone) = Some s1) by (unfold sys_step; rewrite Eh; reflexivity).
        destruct (report_effect es s T T T 0 ODone s1 I Hs1) as (x' & op & pre & k & post & j' & B1 & B2 & B3 & B4 & B5 & B6 & B7).
        cbn [report] in B1. injection B1 as <-. inversion B4; subst.
        destruct (IH T (es ++ [SReport T T T 0 ODone]) s1) as (es' & s' & A1 & A2 & A3 & A4 & A5).
        * unfold to_do in *. rewrite Eh in Hn. cbn [length] in Hn. rewrite B3. rewrite B2 in Hn. cbn [s1 s_held].
          rewrite filter_app in *. cbn [filter] in *. rewrite app_length in *. replace (is_waiting k) with false in Hn by (unfold is_waiting; rewrite B6; reflexivity).
          match goal with |- context [is_waiting ?q] => change (is_waiting q) with false end. cbv iota in *. lia.
        * eapply orun_snoc; [exact Hr|exact Logic.I|exact Hs1].
        * rewrite requests_app. cbn. unfold requests in *. cbn. lia.
        * intros h Hh. apply Hx. rewrite Eh. right. exact Hh.
        * intros j Hj Hwj. unfold jobs_of in Hj. rewrite B3 in Hj. apply in_map_iff in Hj.
          destruct Hj as [k2 [<- Hk2]]. apply in_mid in Hk2. destruct Hk2 as [->|Hk2].
          -- destruct Hwj; discriminate.
          -- apply Hst; [|exact Hwj]. unfold jobs_of. apply in_map. rewrite B2. apply in_mid. auto.
        * exists (SReport T T T 0 ODone :: es'), s'. split; [econstructor; [exact Logic.I|exact Hs1|exact A1]|].
          split; [constructor; [cbn; unfold time in *; repeat split; lia|exact A2]|]. split; [exact A3|]. split; [|exact A5].
          rewrite A4. unfold jobs_of. rewrite B3, B2, !map_app. reflexivity.
  Qed.
End S.
