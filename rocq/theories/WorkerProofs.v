(** Lemmas about the worker task. *)
From Verif Require Import Base Chrono Types TypesProofs Query Memory MemSpec Codec Runner RunnerSpec.

Section W.
  Context {D M : Type}.
  Variable c : codec D M.
  Variable fns : executor_fns D M.
  Variable show : Z -> string.
  Variable limit : option Z.
  Notation step := (worker_step c fns show limit).
  Notation run := (worker_run c fns show limit).

  Lemma run_app w es1 es2 :
    run w (es1 ++ es2) = match run w es1 with None => None | Some w' => run w' es2 end.
  Proof.
    revert w. induction es1 as [|e es1 IH]; intro w; cbn; [reflexivity|].
    destruct (step w e); [apply IH|reflexivity].
  Qed.

  Lemma begin_spawned j x : begin_job c fns j = Spawned x ->
    exists t, typed_of_stored c j = ROk t /\ xf_timeout fns t = Some (x_timeout x)
      /\ xf_backoff fns t = Some (x_delay x) /\ x_id x = j_id j
      /\ x_final x = (j_attempt j =? j_max_attempts j)
      /\ 0 <= j_attempt j <= 65535 /\ 0 <= j_max_attempts j <= 65535.
  Proof.
    unfold begin_job. destruct (typed_of_stored c j) as [t|e|] eqn:Et; try discriminate.
    destruct (xf_timeout fns t) as [to|] eqn:Eo; [|discriminate].
    destruct (xf_backoff fns t) as [d|] eqn:Ed; [|discriminate].
    intro H. injection H as <-. exists t. split; [reflexivity|]. cbn. split; [exact Eo|]. split; [exact Ed|].
    revert Et. unfold typed_of_stored. destruct (dec_data c (j_data j)); [|discriminate].
    destruct (dec_opt (dec_meta c) (j_metadata j)); [|discriminate].
    unfold try_into_u16, in_u16.
    destruct (Z.leb_spec 0 (j_attempt j)), (Z.leb_spec (j_attempt j) 65535); cbn; try discriminate.
    destruct (Z.leb_spec 0 (j_max_attempts j)), (Z.leb_spec (j_max_attempts j) 65535); cbn; try discriminate.
    destruct ((0 <=? j_priority j) && (j_priority j <=? 65535)); [|discriminate].
    intro H'. injection H' as <-. cbn. unfold is_final_attempt. cbn. split; [reflexivity|]. split; [reflexivity|]. lia.
  Qed.

  Lemma begin_logged j : begin_job c fns j = Logged <-> undecodable c j.
  Proof.
    unfold begin_job, undecodable. destruct (typed_of_stored c j) as [t|e|].
    - split; [|intros [e H]; discriminate].
      destruct (xf_timeout fns t); [destruct (xf_backoff fns t)|]; discriminate.
    - split; [intros _; exists e; reflexivity | reflexivity].
    - split; [discriminate | intros [e H]; discriminate].
  Qed.

  Lemma begin_runnable j : (exists x, begin_job c fns j = Spawned x) <-> runnable c fns j.
  Proof.
    unfold runnable. split.
    - intros [x H]. destruct (begin_spawned j x H) as [t [H1 [H2 [H3 _]]]].
      exists t, (x_timeout x), (x_delay x). auto.
    - intros [t [to [d [H1 [H2 H3]]]]]. unfold begin_job. rewrite H1, H2, H3. eauto.
  Qed.

  Lemma report_to_report j x t now1 now2 o op :
    begin_job c fns j = Spawned x -> typed_of_stored c j = ROk t ->
    report show now1 now2 x o = Some op -> to_report fns show j t now1 now2 o op.
  Proof.
    intros Hb Ht Hr. destruct (begin_spawned j x Hb) as [t' [H1 [H2 [H3 [H4 [H5 _]]]]]].
    assert (t' = t) by congruence. subst t'.
    assert (Herr : forall e ty msg, failed show (x_timeout x) o ty msg -> e = mk_exec_error ty msg ->
              report_error now1 now2 x e = Some op -> to_report fns show j t now1 now2 o op).
    { intros e ty msg Hf -> He. unfold report_error in He. rewrite H5, H4 in He.
      destruct (Z.eqb_spec (j_attempt j) (j_max_attempts j)) as [Heq|Hne].
      - injection He as <-. eapply tr_last; eassumption.
      - unfold dt_add in He. destruct (in_dt (now1 + x_delay x)); [|discriminate].
        destruct (in_dt (now2 + x_delay x)); [|discriminate]. injection He as <-.
        eapply tr_again; eassumption. }
    destruct o as [|reason|d|e| |p text|text]; cbn in Hr.
    - injection Hr as <-. rewrite H4. constructor.
    - destruct reason as [reason|]; [|discriminate]. injection Hr as <-. rewrite H4. constructor.
    - unfold dt_add in Hr. destruct (in_dt (now1 + d)); [|discriminate]. injection Hr as <-. rewrite H4. constructor.
    - destruct e as [[ty msg]|]; [|discriminate].
      eapply Herr; [apply failed_error | reflexivity | exact Hr].
    - destruct (x_timeout x) as [d|] eqn:Ed; [|discriminate].
      eapply Herr; [apply failed_timeout; reflexivity | reflexivity | exact Hr].
    - destruct p as [s|].
      + eapply Herr; [apply failed_panic_text | reflexivity | exact Hr].
      + eapply Herr; [apply failed_panic | reflexivity | exact Hr].
    - eapply Herr; [apply failed_aborted | reflexivity | exact Hr].
  Qed.

  Lemma reportable_some x now1 now2 o :
    reportable x now1 now2 o -> (o = OElapsed -> x_timeout x <> None) ->
    exists op, report show now1 now2 x o = Some op.
  Proof.
    intros Hr Ht.
    assert (Herr : forall e, (x_final x = false -> dt_min <= now1 + x_delay x <= dt_max /\ dt_min <= now2 + x_delay x <= dt_max) ->
              exists op, report_error now1 now2 x e = Some op).
    { intros e H. unfold report_error. destruct (x_final x); [eauto|]. destruct (H eq_refl) as [[A1 A2] [B1 B2]].
      unfold dt_add, in_dt. rewrite !(proj2 (Z.leb_le _ _)) by assumption. cbn. eauto. }
    destruct o as [|reason|d|e| |p text|text]; cbn in *.
    - eauto.
    - destruct reason; [eauto|contradiction].
    - unfold dt_add, in_dt. destruct Hr. rewrite !(proj2 (Z.leb_le _ _)) by assumption. cbn. eauto.
    - destruct Hr as [H1 H2]. destruct e as [e|]; [|contradiction]. auto.
    - destruct Hr as [_ H2]. destruct (x_timeout x); [auto|]. destruct (Ht eq_refl eq_refl).
    - destruct Hr as [_ H2]. auto.
    - destruct Hr as [_ H2]. auto.
  Qed.

  (** * The story of each message *)

  (** The observations of message [n] in each phase. *)
  Inductive course (n : nat) : option flight_phase -> list observation -> Prop :=
  | co_new m : course n (Some (FNew m)) [Taken n m]
  | co_exec j x : begin_job c fns j = Spawned x ->
      course n (Some (FExecuting x)) [Taken n (MJob j); Started n x]
  | co_rep j x o now1 now2 op : begin_job c fns j = Spawned x ->
      report show now1 now2 x o = Some op ->
      course n (Some (FReporting op)) [Taken n (MJob j); Started n x; Outcome n o; Reported n op]
  | co_done j x o now1 now2 op : begin_job c fns j = Spawned x ->
      report show now1 now2 x o = Some op ->
      course n None [Taken n (MJob j); Started n x; Outcome n o; Reported n op]
  | co_error e : course n None [Taken n (MError e)]
  | co_logged j : begin_job c fns j = Logged -> course n None [Taken n (MJob j)].

  (** After a crash. *)
  Inductive cut (n : nat) : list observation -> Prop :=
  | cut_course ph l : course n ph l -> cut n l
  | cut_outcome j x o : begin_job c fns j = Spawned x ->
      cut n [Taken n (MJob j); Started n x; Outcome n o].

  Definition winv (w : worker) : Prop :=
    NoDup (map fst (w_flights w))
    /\ (forall n, In n (map fst (w_flights w)) -> (n < w_next w)%nat)
    /\ (forall n, (w_next w <= n)%nat -> story n w = [])
    /\ (forall n, (n < w_next w)%nat ->
          match w_life w with
          | Crashed_worker => cut n (story n w)
          | _ => course n (flight_of n (w_flights w)) (story n w)
          end)
    /\ (w_life w = Ended -> w_flights w = [])
    /\ match w_life w with Working => True | _ => w_open w = false end.

  Lemma flight_of_none n l : flight_of n l = None <-> ~ In n (map fst l).
  Proof.
    induction l as [|[k ph] l IH]; cbn; [tauto|]. destruct (Nat.eqb_spec k n) as [->|Hne].
    - split; [discriminate | intro H; exfalso; auto].
    - rewrite IH. tauto.
  Qed.

  Lemma flight_of_app n l k ph :
    ~ In k (map fst l) ->
    flight_of n (l ++ [(k, ph)]) = if Nat.eqb k n then Some ph else flight_of n l.
  Proof.
    induction l as [|[k' ph'] l IH]; cbn; intro H.
    - destruct (Nat.eqb k n); reflexivity.
    - destruct (Nat.eqb_spec k' n) as [->|Hne].
      + destruct (Nat.eqb_spec k n) as [->|]; [exfalso; auto | reflexivity].
      + apply IH. tauto.
  Qed.

  Lemma set_flight_fst n ph l :
    map fst (set_flight n (Some ph) l) = map fst l.
  Proof.
    induction l as [|[k q] l IH]; cbn; [reflexivity|]. destruct (Nat.eqb k n); cbn; [reflexivity|]. rewrite IH. reflexivity.
  Qed.

  Lemma set_flight_in n ph l k : In k (map fst (set_flight n ph l)) -> In k (map fst l).
  Proof.
    induction l as [|[k' q] l IH]; cbn; [tauto|]. destruct (Nat.eqb k' n).
    - destruct ph; cbn; tauto.
    - cbn. tauto.
  Qed.

  Lemma set_flight_nodup n ph l : NoDup (map fst l) -> NoDup (map fst (set_flight n ph l)).
  Proof.
    induction l as [|[k' q] l IH]; cbn; intro H; [constructor|]. inversion H as [|? ? H1 H2]; subst.
    destruct (Nat.eqb k' n).
    - destruct ph; cbn; [exact H | exact H2].
    - cbn. constructor; [|auto]. intro Hi. apply H1. eapply set_flight_in; eassumption.
  Qed.

  Lemma flight_of_set n ph l k :
    NoDup (map fst l) -> In n (map fst l) ->
    flight_of k (set_flight n ph l) = if Nat.eqb n k then ph else flight_of k l.
  Proof.
    induction l as [|[k' q] l IH]; cbn; intros H Hin; [contradiction|]. inversion H as [|? ? H1 H2]; subst.
    destruct (Nat.eqb_spec k' n) as [->|Hne].
    - destruct ph as [ph|]; cbn.
      + destruct (Nat.eqb n k); reflexivity.
      + destruct (Nat.eqb_spec n k) as [->|]; [apply flight_of_none; exact H1 | reflexivity].
    - cbn. destruct Hin as [Hin|Hin]; [congruence|]. rewrite (IH H2 Hin).
      destruct (Nat.eqb_spec k' k) as [->|]; [|reflexivity].
      destruct (Nat.eqb_spec n k) as [->|]; [congruence|reflexivity].
  Qed.

  Lemma flight_in n ph l : flight_of n l = Some ph -> In n (map fst l).
  Proof.
    intro H. destruct (in_dec Nat.eq_dec n (map fst l)) as [Hi|Hi]; [exact Hi|].
    apply flight_of_none in Hi. congruence.
  Qed.

  Lemma story_cons k n w w' o :
    w_seen w' = o :: w_seen w -> obs_number o = n ->
    story k w' = if Nat.eqb n k then story k w ++ [o] else story k w.
  Proof.
    intros H Ho. unfold story. rewrite H. cbn. rewrite filter_app. cbn. rewrite Ho.
    destruct (Nat.eqb n k); [reflexivity|apply app_nil_r].
  Qed.

  Lemma story_same k w w' : w_seen w' = w_seen w -> story k w' = story k w.
  Proof. intro H. unfold story. rewrite H. reflexivity. Qed.

  Lemma winv_start : winv worker_start.
  Proof.
    unfold winv; cbn. split; [constructor|]. split; [intros n []|]. split; [reflexivity|].
    split; [intros n H; lia|]. split; [discriminate|exact Logic.I].
  Qed.

  Lemma winv_push m w : w_life w = Working -> winv w -> winv (push_flight m w).
  Proof.
    intros Hl [H1 [H2 [H3 [H4 [H5 H6]]]]]. unfold winv, push_flight; cbn [w_flights w_next w_life w_open].
    assert (Hnew : ~ In (w_next w) (map fst (w_flights w))) by (intro H; specialize (H2 _ H); lia).
    assert (Hs : forall k, story k (push_flight m w)
                 = if Nat.eqb (w_next w) k then story k w ++ [Taken (w_next w) m] else story k w).
    { intro k. apply story_cons; reflexivity. }
    unfold push_flight in Hs. rewrite Hl in *.
    split; [rewrite map_app; apply NoDup_Add with (w_next w) (map fst (w_flights w)); [|auto]|].
    { replace (map fst (w_flights w)) with (map fst (w_flights w) ++ []) at 1 by apply app_nil_r. apply Add_app. }
    split.
    { intros n Hn. rewrite map_app in Hn. apply in_app_or in Hn. destruct Hn as [Hn|[<-|[]]]; [specialize (H2 _ Hn)|cbn]; lia. }
    split.
    { intros n Hn. rewrite Hs. destruct (Nat.eqb_spec (w_next w) n); [lia|]. apply H3. lia. }
    split; [|split; [discriminate|exact Logic.I]].
    intros n Hn. rewrite Hs, flight_of_app by exact Hnew.
    destruct (Nat.eqb_spec (w_next w) n) as [<-|Hne].
    - rewrite H3 by lia. constructor.
    - apply H4. lia.
  Qed.

  Lemma winv_progress n ph obs w :
    w_life w = Working -> winv w -> In n (map fst (w_flights w)) ->
    (forall o, In o obs -> obs_number o = n) ->
    course n ph (story n w ++ rev obs) -> winv (progress n ph obs w).
  Proof.
    intros Hl [H1 [H2 [H3 [H4 [H5 H6]]]]] Hin Hobs Hc.
    assert (Hs : forall k, story k (progress n ph obs w) = if Nat.eqb n k then story k w ++ rev obs else story k w).
    { intro k. unfold story, progress; cbn. rewrite rev_app_distr, filter_app.
      destruct (Nat.eqb_spec n k) as [->|Hne].
      - f_equal. clear -Hobs. assert (H : forall o, In o (rev obs) -> obs_number o = k) by (intros o Ho; apply Hobs, in_rev; exact Ho).
        induction (rev obs) as [|o l IH]; [reflexivity|]. cbn. rewrite (H o (or_introl eq_refl)), Nat.eqb_refl.
        f_equal. apply IH. intros o' Ho'. apply H. right. exact Ho'.
      - replace (filter _ (rev obs)) with (@nil observation); [apply app_nil_r|]. symmetry.
        assert (H : forall o, In o (rev obs) -> obs_number o = n) by (intros o Ho; apply Hobs, in_rev; exact Ho).
        clear -H Hne. induction (rev obs) as [|o l IH]; [reflexivity|]. cbn. rewrite (H o (or_introl eq_refl)).
        destruct (Nat.eqb_spec n k); [congruence|]. apply IH. intros o' Ho'. apply H. right. exact Ho'. }
    unfold winv. cbn [progress w_flights w_next w_life w_open]. rewrite Hl in *.
    split; [apply set_flight_nodup; exact H1|].
    split; [intros k Hk; apply H2; eapply set_flight_in; eassumption|].
    split.
    { intros k Hk. rewrite Hs. destruct (Nat.eqb_spec n k) as [->|]; [specialize (H2 _ Hin); lia | apply H3; exact Hk]. }
    split; [|split; [discriminate|exact Logic.I]].
    intros k Hk. rewrite Hs, flight_of_set by assumption.
    destruct (Nat.eqb_spec n k) as [->|]; [exact Hc | apply H4; exact Hk].
  Qed.

  Lemma winv_crash w : w_life w = Working -> winv w ->
    (forall n, (n < w_next w)%nat -> cut n (story n w)) -> winv (crash w).
  Proof.
    intros Hl [H1 [H2 [H3 [H4 [H5 H6]]]]] Hc. unfold winv; cbn [crash w_flights w_next w_life w_open map].
    split; [constructor|]. split; [intros n []|].
    assert (Hs : forall k, story k (crash w) = story k w) by reflexivity.
    split; [intros n Hn; rewrite Hs; auto|]. split; [intros n Hn; rewrite Hs; auto|].
    split; [discriminate|reflexivity].
  Qed.

  Lemma winv_step w e w' : winv w -> step w e = Some w' -> winv w'.
  Proof.
    intros Hw Hs. pose proof Hw as [H1 [H2 [H3 [H4 [H5 H6]]]]]. unfold worker_step in Hs.
    destruct (w_life w) eqn:Hl; try discriminate.
    assert (Hcut : forall n, (n < w_next w)%nat -> cut n (story n w)) by (intros n Hn; eapply cut_course; apply H4; exact Hn).
    destruct e as [m|m| | | | |n|n now1 now2 o|n r|].
    - destruct (w_transit w); [discriminate|]. destruct (may_poll limit w); [|discriminate].
      injection Hs as <-. apply winv_push; assumption.
    - destruct (w_transit w); [discriminate|]. destruct (may_poll limit w); [|discriminate].
      injection Hs as <-. unfold winv; cbn. rewrite ?Hl. unfold story in *; cbn in *. auto 10.
    - destruct (w_transit w) as [m|]; [|discriminate]. destruct (may_poll limit w); [|discriminate].
      injection Hs as <-. apply winv_push; assumption.
    - destruct (w_transit w); [discriminate|]. destruct (may_poll limit w); [|discriminate].
      injection Hs as <-. apply winv_crash; assumption.
    - injection Hs as <-. unfold winv; cbn. rewrite ?Hl. unfold story in *; cbn in *. auto 10.
    - destruct (w_open w && w_cancelled w && below_limit limit (length (w_flights w))); [|discriminate].
      injection Hs as <-. unfold winv; cbn. rewrite ?Hl. unfold story in *; cbn in *. auto 10.
    - destruct (flight_of n (w_flights w)) as [[[j|er]|x|op]|] eqn:Ef; try discriminate.
      + pose proof (flight_in _ _ _ Ef) as Hin. pose proof (H4 n (H2 n Hin)) as Hc. rewrite Ef in Hc.
        inversion Hc as [m0 Hm Hst| | | | |]; subst.
        destruct (begin_job c fns j) as [x| |] eqn:Eb; injection Hs as <-.
        * apply winv_progress; auto.
          -- intros o [<-|[]]. reflexivity.
          -- rewrite <- Hst. cbn. apply co_exec. exact Eb.
        * apply winv_progress; auto; [intros o []|]. rewrite <- Hst. cbn. apply co_logged. exact Eb.
        * apply winv_crash; assumption.
      + pose proof (flight_in _ _ _ Ef) as Hin. pose proof (H4 n (H2 n Hin)) as Hc. rewrite Ef in Hc.
        inversion Hc as [m0 Hm Hst| | | | |]; subst. injection Hs as <-.
        apply winv_progress; auto; [intros o []|]. rewrite <- Hst. cbn. apply co_error.
    - destruct (flight_of n (w_flights w)) as [[m|x|op]|] eqn:Ef; try discriminate.
      pose proof (flight_in _ _ _ Ef) as Hin. pose proof (H4 n (H2 n Hin)) as Hc. rewrite Ef in Hc.
      inversion Hc as [ |j x0 Hb Hx Hst| | | |]; subst.
      assert (Hs' : match report show now1 now2 x o with
              | Some op => Some (progress n (Some (FReporting op)) [Reported n op]
                              (progress n (Some (FExecuting x)) [Outcome n o] w))
              | None => Some (crash (progress n (Some (FExecuting x)) [Outcome n o] w))
              end = Some w').
      { destruct o; try exact Hs. destruct (x_timeout x); [exact Hs|discriminate]. }
      clear Hs. destruct (report show now1 now2 x o) as [op|] eqn:Er; injection Hs' as <-.
      + replace (progress n (Some (FReporting op)) [Reported n op] (progress n (Some (FExecuting x)) [Outcome n o] w))
          with (progress n (Some (FReporting op)) [Reported n op; Outcome n o] w).
        * apply winv_progress; auto.
          -- intros o' [<-|[<-|[]]]; reflexivity.
          -- rewrite <- Hst. cbn. eapply co_rep; eassumption.
        * unfold progress; cbn. f_equal. clear. induction (w_flights w) as [|[k q] l IH]; [reflexivity|]. cbn.
          destruct (Nat.eqb k n) eqn:E; cbn; rewrite E; [reflexivity|]. rewrite IH. reflexivity.
      + unfold winv; cbn [crash progress w_flights w_next w_life w_open map]. split; [constructor|]. split; [intros k []|].
        assert (Hss : forall k, story k (crash (progress n (Some (FExecuting x)) [Outcome n o] w))
                 = if Nat.eqb n k then story k w ++ [Outcome n o] else story k w).
        { intro k. apply story_cons; reflexivity. }
        split; [|split; [|split; [discriminate|reflexivity]]].
        * intros k Hk. rewrite Hss. destruct (Nat.eqb_spec n k) as [->|]; [specialize (H2 _ Hin); lia | auto].
        * intros k Hk. rewrite Hss. destruct (Nat.eqb_spec n k) as [->|]; [|auto].
          rewrite <- Hst. cbn. apply cut_outcome. exact Hb.
    - destruct (flight_of n (w_flights w)) as [[m|x|op]|] eqn:Ef; try discriminate.
      pose proof (flight_in _ _ _ Ef) as Hin. pose proof (H4 n (H2 n Hin)) as Hc. rewrite Ef in Hc.
      inversion Hc as [ | |j x0 o now1 now2 op0 Hb Hr Ho Hst| | |]; subst.
      destruct r; injection Hs as <-.
      + apply winv_progress; auto; [intros o' []|]. rewrite <- Hst. cbn. eapply co_done; eassumption.
      + apply winv_progress; auto; [intros o' []|]. rewrite <- Hst. cbn. eapply co_done; eassumption.
      + apply winv_crash; assumption.
    - destruct (w_open w); [discriminate|]. destruct (w_flights w) eqn:Ef; [|discriminate].
      injection Hs as <-. unfold winv; cbn. unfold story in *; cbn in *. auto 10.
  Qed.

  Lemma winv_run es : forall w w', winv w -> run w es = Some w' -> winv w'.
  Proof.
    induction es as [|e es IH]; intros w w' Hw Hr; cbn in Hr; [injection Hr as <-; exact Hw|].
    destruct (step w e) as [w1|] eqn:E; [|discriminate]. exact (IH w1 w' (winv_step w e w1 Hw E) Hr).
  Qed.

  Lemma run_winv es w : run worker_start es = Some w -> winv w.
  Proof. apply winv_run. exact winv_start. Qed.

  Lemma story_in n o w : In o (w_seen w) /\ obs_number o = n <-> In o (story n w).
  Proof.
    unfold story. rewrite filter_In, <- in_rev. rewrite Nat.eqb_eq. tauto.
  Qed.

  Lemma story_lt n w : winv w -> story n w <> [] -> (n < w_next w)%nat.
  Proof.
    intros [_ [_ [H3 _]]] Hn. destruct (Nat.lt_ge_cases n (w_next w)) as [|Hge]; [assumption|].
    destruct (Hn (H3 n Hge)).
  Qed.

  Lemma course_or_cut n w : winv w -> story n w <> [] -> cut n (story n w).
  Proof.
    intros Hw Hn. pose proof (story_lt n w Hw Hn) as Hlt. destruct Hw as [_ [_ [_ [H4 _]]]].
    specialize (H4 n Hlt). destruct (w_life w); [eapply cut_course; exact H4.. | exact H4].
  Qed.

  (** * Limits and shutdown *)

  Lemma set_flight_length n ph l : (length (set_flight n ph l) <= length l)%nat.
  Proof.
    induction l as [|[k q] l IH]; cbn; [lia|]. destruct (Nat.eqb k n); [destruct ph; cbn; lia|cbn; lia].
  Qed.

  Lemma limit_step lim w e w' : limit = Some lim -> 1 <= lim ->
    Z.of_nat (in_progress w) <= lim -> step w e = Some w' -> Z.of_nat (in_progress w') <= lim.
  Proof.
    intros El Hl Hle Hs. unfold worker_step in Hs. unfold in_progress in *.
    destruct (w_life w); try discriminate.
    assert (Hpush : forall m, may_poll limit w = true -> Z.of_nat (length (w_flights (push_flight m w))) <= lim).
    { intros m Hm. unfold may_poll, below_limit in Hm. rewrite El in Hm. cbn. rewrite app_length. cbn.
      destruct (Z.eqb_spec lim 0); [lia|]. cbn in Hm.
      destruct (Z.ltb_spec (Z.of_nat (length (w_flights w))) lim); [lia|].
      rewrite Bool.andb_false_r in Hm. discriminate. }
    assert (Hprog : forall n ph obs w0, (length (w_flights w0) <= length (w_flights w))%nat ->
              Z.of_nat (length (w_flights (progress n ph obs w0))) <= lim).
    { intros n ph obs w0 H0. cbn. pose proof (set_flight_length n ph (w_flights w0)). lia. }
    assert (Hcr : forall w0, Z.of_nat (length (w_flights (crash w0))) <= lim) by (intro w0; cbn; lia).
    destruct e as [m|m| | | | |n|n now1 now2 o|n r|].
    - destruct (w_transit w); [discriminate|]. destruct (may_poll limit w) eqn:Em; [|discriminate].
      injection Hs as <-. auto.
    - destruct (w_transit w); [discriminate|]. destruct (may_poll limit w); [|discriminate].
      injection Hs as <-. exact Hle.
    - destruct (w_transit w) as [m|]; [|discriminate]. destruct (may_poll limit w) eqn:Em; [|discriminate].
      injection Hs as <-. auto.
    - destruct (w_transit w); [discriminate|]. destruct (may_poll limit w); [|discriminate].
      injection Hs as <-. auto.
    - injection Hs as <-. exact Hle.
    - destruct (w_open w && w_cancelled w && below_limit limit (length (w_flights w))); [|discriminate].
      injection Hs as <-. exact Hle.
    - destruct (flight_of n (w_flights w)) as [[[j|er]|x|op]|]; try discriminate.
      + destruct (begin_job c fns j); injection Hs as <-; auto.
      + injection Hs as <-. auto.
    - destruct (flight_of n (w_flights w)) as [[m|x|op]|]; try discriminate.
      assert (Hs' : match report show now1 now2 x o with
              | Some op => Some (progress n (Some (FReporting op)) [Reported n op]
                              (progress n (Some (FExecuting x)) [Outcome n o] w))
              | None => Some (crash (progress n (Some (FExecuting x)) [Outcome n o] w))
              end = Some w').
      { destruct o; try exact Hs. destruct (x_timeout x); [exact Hs|discriminate]. }
      destruct (report show now1 now2 x o); injection Hs' as <-; auto.
      apply Hprog. cbn. apply set_flight_length.
    - destruct (flight_of n (w_flights w)) as [[m|x|op]|]; try discriminate.
      destruct r; injection Hs as <-; auto.
    - destruct (w_open w); [discriminate|]. destruct (w_flights w); [|discriminate]. injection Hs as <-. cbn. lia.
  Qed.

  Lemma limit_run lim es : limit = Some lim -> 1 <= lim -> forall w w',
    Z.of_nat (in_progress w) <= lim -> run w es = Some w' -> Z.of_nat (in_progress w') <= lim.
  Proof.
    intros El Hl. induction es as [|e es IH]; intros w w' Hle Hr; cbn in Hr; [injection Hr as <-; exact Hle|].
    destruct (step w e) as [w1|] eqn:E; [|discriminate]. eapply IH; [|exact Hr]. eapply limit_step; eassumption.
  Qed.

  (** Once the token is cancelled nothing more is taken. *)
  Definition taken_in (w : worker) : list observation :=
    filter (fun o => match o with Taken _ _ => true | _ => false end) (w_seen w).

  Lemma cancelled_step w e w' : w_cancelled w = true -> step w e = Some w' ->
    w_cancelled w' = true /\ taken_in w' = taken_in w.
  Proof.
    intros Hc Hs. unfold worker_step in Hs. destruct (w_life w); try discriminate.
    assert (Hm : may_poll limit w = false).
    { unfold may_poll. rewrite Hc. cbn. rewrite Bool.andb_false_r. reflexivity. }
    destruct e as [m|m| | | | |n|n now1 now2 o|n r|]; rewrite ?Hm in Hs.
    - destruct (w_transit w); discriminate.
    - destruct (w_transit w); discriminate.
    - destruct (w_transit w); discriminate.
    - destruct (w_transit w); discriminate.
    - injection Hs as <-. auto.
    - destruct (w_open w && w_cancelled w && below_limit limit (length (w_flights w))); [|discriminate].
      injection Hs as <-. auto.
    - destruct (flight_of n (w_flights w)) as [[[j|er]|x|op]|]; try discriminate.
      + destruct (begin_job c fns j); injection Hs as <-; auto.
      + injection Hs as <-. auto.
    - destruct (flight_of n (w_flights w)) as [[m|x|op]|]; try discriminate.
      assert (Hs' : match report show now1 now2 x o with
              | Some op => Some (progress n (Some (FReporting op)) [Reported n op]
                              (progress n (Some (FExecuting x)) [Outcome n o] w))
              | None => Some (crash (progress n (Some (FExecuting x)) [Outcome n o] w))
              end = Some w').
      { destruct o; try exact Hs. destruct (x_timeout x); [exact Hs|discriminate]. }
      destruct (report show now1 now2 x o); injection Hs' as <-; auto.
    - destruct (flight_of n (w_flights w)) as [[m|x|op]|]; try discriminate.
      destruct r; injection Hs as <-; auto.
    - destruct (w_open w); [discriminate|]. destruct (w_flights w); [|discriminate]. injection Hs as <-. auto.
  Qed.

  Lemma cancelled_run es : forall w w', w_cancelled w = true -> run w es = Some w' ->
    w_cancelled w' = true /\ taken_in w' = taken_in w.
  Proof.
    induction es as [|e es IH]; intros w w' Hc Hr; cbn in Hr; [injection Hr as <-; auto|].
    destruct (step w e) as [w1|] eqn:E; [|discriminate].
    destruct (cancelled_step w e w1 Hc E) as [H1 H2]. destruct (IH w1 w' H1 Hr) as [H3 H4]. split; [exact H3|congruence].
  Qed.

  (** * Crashes *)

  (** What makes a step crash the worker. *)
  Lemma crash_step w e w' : winv w -> step w e = Some w' -> w_life w = Working -> w_life w' = Crashed_worker ->
    (exists n j, e = WStart n /\ flight_of n (w_flights w) = Some (FNew (MJob j)) /\ begin_job c fns j = Died)
    \/ (exists n now1 now2 o x, e = WEnd n now1 now2 o /\ flight_of n (w_flights w) = Some (FExecuting x)
          /\ report show now1 now2 x o = None /\ (o = OElapsed -> x_timeout x <> None))
    \/ (exists n, e = WReported n Panic) \/ e = WPanic.
  Proof.
    intros Hw Hs Hl Hl'. unfold worker_step in Hs. rewrite Hl in Hs.
    destruct e as [m|m| | | | |n|n now1 now2 o|n r|].
    - destruct (w_transit w); [discriminate|]. destruct (may_poll limit w); [|discriminate].
      injection Hs as <-. cbn in Hl'. congruence.
    - destruct (w_transit w); [discriminate|]. destruct (may_poll limit w); [|discriminate].
      injection Hs as <-. cbn in Hl'. congruence.
    - destruct (w_transit w) as [m|]; [|discriminate]. destruct (may_poll limit w); [|discriminate].
      injection Hs as <-. cbn in Hl'. congruence.
    - destruct (w_transit w); [discriminate|]. destruct (may_poll limit w); [|discriminate].
      auto.
    - injection Hs as <-. cbn in Hl'. congruence.
    - destruct (w_open w && w_cancelled w && below_limit limit (length (w_flights w))); [|discriminate].
      injection Hs as <-. cbn in Hl'. congruence.
    - destruct (flight_of n (w_flights w)) as [[[j|er]|x|op]|] eqn:Ef; try discriminate.
      + destruct (begin_job c fns j) eqn:Eb; injection Hs as <-; cbn in Hl'; try congruence.
        left. exists n, j. auto.
      + injection Hs as <-. cbn in Hl'. congruence.
    - destruct (flight_of n (w_flights w)) as [[m|x|op]|] eqn:Ef; try discriminate.
      assert (Hs' : (o = OElapsed -> x_timeout x <> None) /\ match report show now1 now2 x o with
              | Some op => Some (progress n (Some (FReporting op)) [Reported n op]
                              (progress n (Some (FExecuting x)) [Outcome n o] w))
              | None => Some (crash (progress n (Some (FExecuting x)) [Outcome n o] w))
              end = Some w').
      { destruct o; try (split; [discriminate|exact Hs]).
        destruct (x_timeout x); [split; [discriminate|exact Hs]|discriminate]. }
      destruct Hs' as [Ho Hs']. right. left. exists n, now1, now2, o, x.
      destruct (report show now1 now2 x o); injection Hs' as <-; cbn in Hl'; [congruence|auto].
    - destruct (flight_of n (w_flights w)) as [[m|x|op]|]; try discriminate.
      destruct r; injection Hs as <-; cbn in Hl'; try congruence. right. right. left. exists n. reflexivity.
    - destruct (w_open w); [discriminate|]. destruct (w_flights w); [|discriminate]. injection Hs as <-. discriminate.
  Qed.

  Lemma dead_end w e : w_life w <> Working -> step w e = None.
  Proof. intro H. unfold worker_step. destruct (w_life w); [contradiction|reflexivity|reflexivity]. Qed.

  Lemma seen_grows w e w' o : step w e = Some w' -> In o (w_seen w) -> In o (w_seen w').
  Proof.
    intros Hs Hi. unfold worker_step in Hs. destruct (w_life w); try discriminate.
    destruct e as [m|m| | | | |n|n now1 now2 oo|n r|].
    - destruct (w_transit w); [discriminate|]. destruct (may_poll limit w); [|discriminate].
      injection Hs as <-. right. exact Hi.
    - destruct (w_transit w); [discriminate|]. destruct (may_poll limit w); [|discriminate].
      injection Hs as <-. exact Hi.
    - destruct (w_transit w) as [m|]; [|discriminate]. destruct (may_poll limit w); [|discriminate].
      injection Hs as <-. right. exact Hi.
    - destruct (w_transit w); [discriminate|]. destruct (may_poll limit w); [|discriminate].
      injection Hs as <-. exact Hi.
    - injection Hs as <-. exact Hi.
    - destruct (w_open w && w_cancelled w && below_limit limit (length (w_flights w))); [|discriminate].
      injection Hs as <-. exact Hi.
    - destruct (flight_of n (w_flights w)) as [[[j|er]|x|op]|]; try discriminate.
      + destruct (begin_job c fns j); injection Hs as <-; cbn; auto.
      + injection Hs as <-. exact Hi.
    - destruct (flight_of n (w_flights w)) as [[m|x|op]|]; try discriminate.
      assert (Hs' : match report show now1 now2 x oo with
              | Some op => Some (progress n (Some (FReporting op)) [Reported n op]
                              (progress n (Some (FExecuting x)) [Outcome n oo] w))
              | None => Some (crash (progress n (Some (FExecuting x)) [Outcome n oo] w))
              end = Some w').
      { destruct oo; try exact Hs. destruct (x_timeout x); [exact Hs|discriminate]. }
      destruct (report show now1 now2 x oo); injection Hs' as <-; cbn; auto.
    - destruct (flight_of n (w_flights w)) as [[m|x|op]|]; try discriminate.
      destruct r; injection Hs as <-; exact Hi.
    - destruct (w_open w); [discriminate|]. destruct (w_flights w); [|discriminate]. injection Hs as <-. exact Hi.
  Qed.

  Lemma seen_run es : forall w w' o, run w es = Some w' -> In o (w_seen w) -> In o (w_seen w').
  Proof.
    induction es as [|e es IH]; intros w w' o Hr Hi; cbn in Hr; [injection Hr as <-; exact Hi|].
    destruct (step w e) as [w1|] eqn:E; [|discriminate]. eapply IH; [exact Hr|]. eapply seen_grows; eassumption.
  Qed.

  (** * Where reports come from *)

  Definition about (e : worker_event) : option nat :=
    match e with WStart n | WEnd n _ _ _ | WReported n _ => Some n | _ => None end.

  Lemma reported_step w e w' n op :
    step w e = Some w' -> In (Reported n op) (w_seen w') ->
    In (Reported n op) (w_seen w)
    \/ exists now1 now2 o x, e = WEnd n now1 now2 o /\ flight_of n (w_flights w) = Some (FExecuting x)
         /\ report show now1 now2 x o = Some op /\ In (Outcome n o) (w_seen w').
  Proof.
    intros Hs Hi. unfold worker_step in Hs. destruct (w_life w); try discriminate.
    destruct e as [m|m| | | | |k|k now1 now2 oo|k r|].
    - destruct (w_transit w); [discriminate|]. destruct (may_poll limit w); [|discriminate].
      injection Hs as <-. destruct Hi as [Hi|Hi]; [discriminate|auto].
    - destruct (w_transit w); [discriminate|]. destruct (may_poll limit w); [|discriminate].
      injection Hs as <-. auto.
    - destruct (w_transit w) as [m|]; [|discriminate]. destruct (may_poll limit w); [|discriminate].
      injection Hs as <-. destruct Hi as [Hi|Hi]; [discriminate|auto].
    - destruct (w_transit w); [discriminate|]. destruct (may_poll limit w); [|discriminate].
      injection Hs as <-. auto.
    - injection Hs as <-. auto.
    - destruct (w_open w && w_cancelled w && below_limit limit (length (w_flights w))); [|discriminate].
      injection Hs as <-. auto.
    - destruct (flight_of k (w_flights w)) as [[[j|er]|x|op']|]; try discriminate.
      + destruct (begin_job c fns j); injection Hs as <-; auto.
        destruct Hi as [Hi|Hi]; [discriminate|auto].
      + injection Hs as <-. auto.
    - destruct (flight_of k (w_flights w)) as [[m|x|op']|] eqn:Ef; try discriminate.
      assert (Hs' : match report show now1 now2 x oo with
              | Some op => Some (progress k (Some (FReporting op)) [Reported k op]
                              (progress k (Some (FExecuting x)) [Outcome k oo] w))
              | None => Some (crash (progress k (Some (FExecuting x)) [Outcome k oo] w))
              end = Some w').
      { destruct oo; try exact Hs. destruct (x_timeout x); [exact Hs|discriminate]. }
      destruct (report show now1 now2 x oo) as [op'|] eqn:Er; injection Hs' as <-.
      + destruct Hi as [Hi|[Hi|Hi]]; [|discriminate|auto]. injection Hi as -> ->.
        right. exists now1, now2, oo, x. split; [reflexivity|]. split; [exact Ef|]. split; [exact Er|].
        right. left. reflexivity.
      + destruct Hi as [Hi|Hi]; [discriminate|auto].
    - destruct (flight_of k (w_flights w)) as [[m|x|op']|]; try discriminate.
      destruct r; injection Hs as <-; auto.
    - destruct (w_open w); [discriminate|]. destruct (w_flights w); [|discriminate]. injection Hs as <-. auto.
  Qed.

  Lemma reported_run es : forall w w' n op,
    run w es = Some w' -> In (Reported n op) (w_seen w') ->
    In (Reported n op) (w_seen w)
    \/ exists now1 now2 o x, In (WEnd n now1 now2 o) es
         /\ report show now1 now2 x o = Some op /\ In (Outcome n o) (w_seen w')
         /\ (winv w -> In (Started n x) (w_seen w')).
  Proof.
    induction es as [|e es IH]; intros w w' n op Hr Hi; cbn in Hr; [injection Hr as <-; auto|].
    destruct (step w e) as [w1|] eqn:E; [|discriminate].
    destruct (IH w1 w' n op Hr Hi) as [H|[now1 [now2 [o [x [H1 [H2 [H3 H4]]]]]]]].
    - destruct (reported_step w e w1 n op E H) as [H0|[now1 [now2 [o [x [-> [H1 [H2 H3]]]]]]]]; [auto|].
      right. exists now1, now2, o, x. split; [left; reflexivity|]. split; [exact H2|].
      split; [eapply seen_run; eassumption|]. intros Hw.
      eapply seen_run; [exact Hr|]. eapply seen_grows; [exact E|].
      pose proof Hw as [_ [W2 [_ [W4 _]]]].
      pose proof (flight_in _ _ _ H1) as Hin. pose proof (W4 n (W2 n Hin)) as Hc.
      unfold worker_step in E. destruct (w_life w); try discriminate. rewrite H1 in Hc.
      inversion Hc as [ |j x0 Hb Hx Hst| | | |]; subst.
      assert (In (Started n x) (story n w)) as Hs by (rewrite <- Hst; right; left; reflexivity).
      apply story_in in Hs. tauto.
    - right. exists now1, now2, o, x. split; [right; exact H1|]. split; [exact H2|]. split; [exact H3|].
      intro Hw. apply H4. eapply winv_step; eassumption.
  Qed.

  (** A step about one message leaves the others alone. *)
  Lemma isolated w e w' n k :
    winv w -> step w e = Some w' -> about e = Some n -> k <> n -> w_life w' <> Crashed_worker ->
    flight_of k (w_flights w') = flight_of k (w_flights w) /\ story k w' = story k w.
  Proof.
    intros Hw Hs Ha Hk Hl. pose proof Hw as [W1 [W2 _]]. unfold worker_step in Hs.
    assert (Hp : forall ph obs, In n (map fst (w_flights w)) -> (forall o, In o obs -> obs_number o = n) ->
      flight_of k (w_flights (progress n ph obs w)) = flight_of k (w_flights w)
      /\ story k (progress n ph obs w) = story k w).
    { intros ph obs Hin Hobs. split.
      - cbn. rewrite flight_of_set by assumption. destruct (Nat.eqb_spec n k); [congruence|reflexivity].
      - unfold story, progress; cbn. rewrite rev_app_distr, filter_app.
        replace (filter _ (rev obs)) with (@nil observation); [apply app_nil_r|]. symmetry.
        assert (H : forall o, In o (rev obs) -> obs_number o = n) by (intros o Ho; apply Hobs, in_rev; exact Ho).
        clear -H Hk. induction (rev obs) as [|o l IH]; [reflexivity|]. cbn. rewrite (H o (or_introl eq_refl)).
        destruct (Nat.eqb_spec n k); [congruence|]. apply IH. intros o' Ho'. apply H. right. exact Ho'. }
    destruct (w_life w); try discriminate.
    destruct e as [m|m| | | | |n0|n0 now1 now2 oo|n0 r|]; cbn in Ha; try discriminate; injection Ha as ->.
    - destruct (flight_of n (w_flights w)) as [[[j|er]|x|op']|] eqn:Ef; try discriminate;
        pose proof (flight_in _ _ _ Ef) as Hin.
      + destruct (begin_job c fns j); injection Hs as <-.
        * apply Hp; [exact Hin|]. intros o [<-|[]]. reflexivity.
        * apply Hp; [exact Hin|]. intros o [].
        * destruct Hl. reflexivity.
      + injection Hs as <-. apply Hp; [exact Hin|]. intros o [].
    - destruct (flight_of n (w_flights w)) as [[m|x|op']|] eqn:Ef; try discriminate.
      pose proof (flight_in _ _ _ Ef) as Hin.
      assert (Hs' : match report show now1 now2 x oo with
              | Some op => Some (progress n (Some (FReporting op)) [Reported n op]
                              (progress n (Some (FExecuting x)) [Outcome n oo] w))
              | None => Some (crash (progress n (Some (FExecuting x)) [Outcome n oo] w))
              end = Some w').
      { destruct oo; try exact Hs. destruct (x_timeout x); [exact Hs|discriminate]. }
      destruct (report show now1 now2 x oo) as [op'|] eqn:Er; injection Hs' as <-; [|destruct Hl; reflexivity].
      assert (E : progress n (Some (FReporting op')) [Reported n op'] (progress n (Some (FExecuting x)) [Outcome n oo] w)
                = progress n (Some (FReporting op')) [Reported n op'; Outcome n oo] w).
      { unfold progress; cbn. f_equal. clear. induction (w_flights w) as [|[q0 q] l IH]; [reflexivity|]. cbn.
        destruct (Nat.eqb q0 n) eqn:E; cbn; rewrite E; [reflexivity|]. rewrite IH. reflexivity. }
      rewrite E. apply Hp; [exact Hin|]. intros o [<-|[<-|[]]]; reflexivity.
    - destruct (flight_of n (w_flights w)) as [[m|x|op']|] eqn:Ef; try discriminate.
      pose proof (flight_in _ _ _ Ef) as Hin.
      destruct r; injection Hs as <-; [| |destruct Hl; reflexivity]; (apply Hp; [exact Hin|]; intros o []).
  Qed.

  (** * Running everything to its end *)

  Lemma finish_one w n ph :
    winv w -> w_life w = Working -> flight_of n (w_flights w) = Some ph ->
    (forall j, ph = FNew (MJob j) -> runnable c fns j \/ undecodable c j) ->
    exists es w', run w es = Some w' /\ w_life w' = Working /\ w_cancelled w' = w_cancelled w
      /\ w_open w' = w_open w /\ w_flights w' = set_flight n None (w_flights w).
  Proof.
    intros Hw Hl Hf Hj.
    assert (Hrep : forall w0 op, w_life w0 = Working -> flight_of n (w_flights w0) = Some (FReporting op) ->
      step w0 (WReported n (Ok tt)) = Some (progress n None [] w0)).
    { intros w0 op H1 H2. unfold worker_step. rewrite H1, H2. reflexivity. }
    assert (Hset2 : forall a l, set_flight n None (set_flight n (Some a) l) = set_flight n None l).
    { intros a l. induction l as [|[q0 q] l IH]; [reflexivity|]. cbn.
      destruct (Nat.eqb q0 n) eqn:E; cbn; rewrite E; [reflexivity|]. rewrite IH. reflexivity. }
    assert (Hof : forall a l, flight_of n l <> None -> flight_of n (set_flight n (Some a) l) = Some a).
    { intros a l. induction l as [|[q0 q] l IH]; [intro H; destruct H; reflexivity|]. cbn.
      destruct (Nat.eqb q0 n) eqn:E; cbn; rewrite E; [reflexivity|exact IH]. }
    assert (Hexec : forall w0 x, w_life w0 = Working -> flight_of n (w_flights w0) = Some (FExecuting x) ->
      exists es w', run w0 es = Some w' /\ w_life w' = Working /\ w_cancelled w' = w_cancelled w0
      /\ w_open w' = w_open w0 /\ w_flights w' = set_flight n None (w_flights w0)).
    { intros w0 x H1 H2. exists [WEnd n 0 0 ODone; WReported n (Ok tt)]. eexists. split.
      - cbn [worker_run]. unfold worker_step at 1. rewrite H1, H2. cbn [report].
        rewrite (Hrep _ (OpComplete (x_id x))); [reflexivity | exact H1|].
        cbn [progress w_flights]. apply Hof. rewrite Hof; [discriminate|congruence].
      - cbn [progress w_life w_cancelled w_open w_flights]. split; [exact H1|]. split; [reflexivity|].
        split; [reflexivity|]. rewrite !Hset2. reflexivity. }
    destruct ph as [[j|er]|x|op].
    - destruct (Hj j eq_refl) as [Hr|Hu].
      + apply begin_runnable in Hr. destruct Hr as [x Hx].
        destruct (Hexec (progress n (Some (FExecuting x)) [Started n x] w) x Hl) as [es [w' [H1 [H2 [H3 [H4 H5]]]]]].
        { cbn [progress w_flights]. apply Hof. congruence. }
        exists (WStart n :: es), w'. split.
        * cbn [worker_run]. unfold worker_step at 1. rewrite Hl, Hf, Hx. exact H1.
        * split; [exact H2|]. split; [exact H3|]. split; [exact H4|].
          rewrite H5. cbn [progress w_flights]. apply Hset2.
      + apply begin_logged in Hu. exists [WStart n]. eexists. split.
        * cbn [worker_run]. unfold worker_step. rewrite Hl, Hf, Hu. reflexivity.
        * cbn. auto.
    - exists [WStart n]. eexists. split.
      + cbn [worker_run]. unfold worker_step. rewrite Hl, Hf. reflexivity.
      + cbn. auto.
    - exact (Hexec w x Hl Hf).
    - exists [WReported n (Ok tt)]. eexists. split.
      + cbn [worker_run]. rewrite (Hrep w op Hl Hf). reflexivity.
      + cbn. auto.
  Qed.

  Lemma set_flight_head n ph l : set_flight n None ((n, ph) :: l) = l.
  Proof. cbn. rewrite Nat.eqb_refl. reflexivity. Qed.

  Lemma finish_all : forall l w,
    winv w -> w_life w = Working -> w_flights w = l ->
    (forall n j, In (n, FNew (MJob j)) l -> runnable c fns j \/ undecodable c j) ->
    exists es w', run w es = Some w' /\ w_life w' = Working /\ w_cancelled w' = w_cancelled w
      /\ w_open w' = w_open w /\ w_flights w' = [].
  Proof.
    induction l as [|[n ph] l IH]; intros w Hw Hl Ef Hj.
    - exists [], w. cbn. auto 10.
    - destruct (finish_one w n ph Hw Hl) as [es [w1 [H1 [H2 [H3 [H4 H5]]]]]].
      + rewrite Ef. cbn. rewrite Nat.eqb_refl. reflexivity.
      + intros j ->. apply (Hj n). left. reflexivity.
      + rewrite Ef, set_flight_head in H5.
        destruct (IH w1) as [es2 [w2 [G1 [G2 [G3 [G4 G5]]]]]]; auto.
        * eapply winv_run; eassumption.
        * intros k j Hin. apply (Hj k). right. exact Hin.
        * exists (es ++ es2), w2. rewrite run_app, H1. split; [exact G1|]. split; [exact G2|].
          split; [congruence|]. split; [congruence|exact G5].
  Qed.
End W.
