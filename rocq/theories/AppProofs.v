(** Lemmas about the [Rexecutor] object. *)
From Coq Require Import Lia.
From Verif Require Import Base Chrono Types Query Memory MemSpec Codec Builder GlobalBackend Runner RunnerSpec WorkerProofs
  Ticker SchedSpec SchedProofs Pruner ApiProofs App AppSpec.

Lemma nth_set_same {A} i (x : A) l y : nth_error l i = Some y -> nth_error (set_nth i x l) i = Some x.
Proof. revert i. induction l as [|z l IH]; intros [|i] H; cbn in *; try discriminate; auto. Qed.
Lemma in_set_nth {A} i (x y : A) l : In y (set_nth i x l) -> y = x \/ In y l.
Proof.
  revert i. induction l as [|z l IH]; intros [|i] H; cbn in *; auto.
  - destruct H as [<-|H]; auto.
  - destruct H as [<-|H]; auto. destruct (IH _ H); auto.
Qed.
Lemma map_set_nth {A B} (f : A -> B) i x l y :
  nth_error l i = Some y -> f x = f y -> map f (set_nth i x l) = map f l.
Proof.
  revert i. induction l as [|z l IH]; intros [|i] H E; cbn in *; try discriminate; auto.
  - injection H as ->. now rewrite E.
  - now rewrite (IH _ H E).
Qed.

Section Proofs.
  Context {Schedule Zone : Type}.
  Variable utc : Zone.
  Variable upcoming : Schedule -> Zone -> time -> option time.
  Variable show : Z -> string.
  Notation step := (app_step utc upcoming show).
  Notation run := (app_run utc upcoming show).
  Notation tsk := (task Schedule Zone).
  Notation wrun e := (worker_run (xe_codec e) (xe_fns e) show (ex_max_concurrency (xe_consts e))).
  Notation wstep e := (worker_step (xe_codec e) (xe_fns e) show (ex_max_concurrency (xe_consts e))).

  Lemma run_app_split es1 : forall es2 s s' rs,
    run s (es1 ++ es2) = Some (s', rs) ->
    exists s1 rs1 rs2, run s es1 = Some (s1, rs1) /\ run s1 es2 = Some (s', rs2) /\ rs = rs1 ++ rs2
      /\ length rs1 = length es1.
  Proof.
    induction es1 as [|[now ev] es1 IH]; intros es2 s s' rs H; cbn [app app_run] in *.
    - exists s, [], rs. auto.
    - destruct (step now s ev) as [[s1 r]|]; [|discriminate].
      destruct (run s1 (es1 ++ es2)) as [[s2 rs2]|] eqn:E; [|discriminate]. injection H as <- <-.
      destruct (IH _ _ _ _ E) as [sm [r1 [r2 [H1 [H2 [-> H3]]]]]]. exists sm, (r :: r1), r2. rewrite H1. cbn. auto.
  Qed.
  Lemma run_join es1 : forall es2 s s1 s' rs1 rs2,
    run s es1 = Some (s1, rs1) -> run s1 es2 = Some (s', rs2) -> run s (es1 ++ es2) = Some (s', rs1 ++ rs2).
  Proof.
    induction es1 as [|[now ev] es1 IH]; intros es2 s s1 s' rs1 rs2 H1 H2; cbn [app app_run] in *.
    - injection H1 as <- <-. exact H2.
    - destruct (step now s ev) as [[s0 r]|]; [|discriminate].
      destruct (run s0 es1) as [[sa ra]|] eqn:E; [|discriminate]. injection H1 as <- <-.
      rewrite (IH _ _ _ _ _ _ E H2). reflexivity.
  Qed.

  (** The task's own flag of having been told to stop agrees with [b], and its past is a run of its
      kind of task. *)
  Definition task_ok (b : bool) (t : tsk) : Prop :=
    match ta_body t with
    | BWorker e w =>
        exists wes, wrun e worker_start wes = Some w /\ (In WCancel wes -> b = true)
          /\ (w_life w = Working -> w_cancelled w = b)
    | BCron e s z data k =>
        exists n0 tes, tick_run (upcoming s z) (ticker_start n0) tes = Some k /\ (In Cancel tes -> b = true)
    | BPruner s cfg k =>
        exists n0 tes, tick_run (upcoming s utc) (ticker_start n0) tes = Some k /\ (In Cancel tes -> b = true)
    end.

  Lemma tick_run_snoc up : forall tes k e k1 k2,
    tick_run up k tes = Some k1 -> tick_step up k1 e = Some k2 -> tick_run up k (tes ++ [e]) = Some k2.
  Proof.
    induction tes as [|e0 tes IH]; intros k e k1 k2 H1 H2; cbn [tick_run app] in *.
    - injection H1 as ->. now rewrite H2.
    - destruct (tick_step up k e0); [|discriminate]. eauto.
  Qed.
  Lemma worker_run_snoc {D M} (c : codec D M) fns limit : forall wes w e w1 w2,
    worker_run c fns show limit w wes = Some w1 -> worker_step c fns show limit w1 e = Some w2 ->
    worker_run c fns show limit w (wes ++ [e]) = Some w2.
  Proof.
    induction wes as [|e0 wes IH]; intros w e w1 w2 H1 H2; cbn [worker_run app] in *.
    - injection H1 as ->. now rewrite H2.
    - destruct (worker_step c fns show limit w e0); [|discriminate]. eauto.
  Qed.

  Lemma keeps_cancelled {D M} (c : codec D M) fns limit w e w' :
    worker_step c fns show limit w e = Some w' -> e <> WCancel -> w_cancelled w' = w_cancelled w.
  Proof.
    unfold worker_step. intros H Hne. destruct (w_life w); try discriminate.
    destruct e; try congruence;
      repeat match type of H with
             | context [match ?x with _ => _ end] => destruct x; try discriminate
             end; injection H as <-; reflexivity.
  Qed.

  Lemma worker_task_ok b t e t' :
    task_ok b t -> worker_task_step show t e = Some t' ->
    task_ok b t' /\ ta_token t' = ta_token t /\ ta_backend t' = ta_backend t /\ purpose t' = purpose t.
  Proof.
    intros Hok H. unfold worker_task_step in H.
    destruct t as [tb tk [x w|x sc z data k|sc cfg k]]; cbn [ta_body ta_token ta_backend] in *; [|destruct e; discriminate..].
    assert (Hne : e <> WCancel) by (intros ->; discriminate).
    destruct (wstep x w e) as [w'|] eqn:E; [|destruct e; discriminate].
    assert (t' = mk_task tb tk (BWorker x w')) as -> by (destruct e; congruence).
    split; [|cbn; auto]. unfold task_ok in *. cbn [ta_body] in *. destruct Hok as [wes [H1 [H2 H3]]].
    exists (wes ++ [e]). split; [eapply worker_run_snoc; eassumption|]. split.
    - intro Hi. apply in_app_or in Hi. destruct Hi as [Hi|[Hi|[]]]; [auto|congruence].
    - intros _. rewrite (keeps_cancelled _ _ _ _ _ _ E Hne). apply H3.
      unfold worker_step in E. destruct (w_life w); congruence.
  Qed.

  Lemma tick_task_ok b t e t' :
    task_ok b t -> tick_task_step utc upcoming b t e = Some t' ->
    task_ok b t' /\ ta_token t' = ta_token t /\ ta_backend t' = ta_backend t /\ purpose t' = purpose t.
  Proof.
    intros Hok H. unfold tick_task_step in H.
    assert (Hc : e = Cancel -> b = true) by (intros ->; destruct b; [reflexivity|discriminate]).
    destruct t as [tb tk [x w|x sc z data k|sc cfg k]]; cbn [ta_body ta_token ta_backend] in *.
    - destruct e, b; discriminate.
    - destruct (tick_step (upcoming sc z) k e) as [k'|] eqn:E; [|destruct e, b; discriminate].
      assert (t' = mk_task tb tk (BCron x sc z data k')) as -> by (destruct e, b; congruence).
      split; [|cbn; auto]. unfold task_ok in *. cbn [ta_body] in *. destruct Hok as [n0 [tes [H1 H2]]].
      exists n0, (tes ++ [e]). split; [eapply tick_run_snoc; eassumption|].
      intro Hi. apply in_app_or in Hi. destruct Hi as [Hi|[Hi|[]]]; [auto|congruence || (subst; auto)].
    - destruct (tick_step (upcoming sc utc) k e) as [k'|] eqn:E; [|destruct e, b; discriminate].
      assert (t' = mk_task tb tk (BPruner sc cfg k')) as -> by (destruct e, b; congruence).
      split; [|cbn; auto]. unfold task_ok in *. cbn [ta_body] in *. destruct Hok as [n0 [tes [H1 H2]]].
      exists n0, (tes ++ [e]). split; [eapply tick_run_snoc; eassumption|].
      intro Hi. apply in_app_or in Hi. destruct Hi as [Hi|[Hi|[]]]; [auto|congruence || (subst; auto)].
  Qed.

  Lemma told_same h (t : tsk) :
    ta_token (told show h t) = ta_token t /\ ta_backend (told show h t) = ta_backend t
    /\ purpose (told show h t) = purpose t.
  Proof.
    unfold told. destruct (Nat.eqb (ta_token t) h); [|auto].
    destruct t as [tb tk [x w|x sc z data k|sc cfg k]]; cbn [ta_body]; auto.
    destruct (wstep x w WCancel); cbn; auto.
  Qed.
  Lemma told_other h (t : tsk) : ta_token t <> h -> told show h t = t.
  Proof. intro H. unfold told. apply Nat.eqb_neq in H. now rewrite H. Qed.
  Lemma told_ok h b (t : tsk) : task_ok b t -> ta_token t = h -> task_ok true (told show h t).
  Proof.
    intros Hok <-. unfold told. rewrite Nat.eqb_refl.
    destruct t as [tb tk [x w|x sc z data k|sc cfg k]]; cbn [ta_body ta_token ta_backend] in *; unfold task_ok in *; cbn [ta_body] in *.
    - destruct Hok as [wes [H1 [H2 H3]]]. destruct (wstep x w WCancel) as [w'|] eqn:E; cbn [ta_body].
      + exists (wes ++ [WCancel]). split; [eapply worker_run_snoc; eassumption|]. split; [reflexivity|]. intros _.
        unfold worker_step in E. destruct (w_life w); try discriminate. injection E as <-. reflexivity.
      + exists wes. split; [exact H1|]. split; [reflexivity|]. intro Hl. unfold worker_step in E. rewrite Hl in E. discriminate.
    - destruct Hok as [n0 [tes [H1 H2]]]. exists n0, tes. auto.
    - destruct Hok as [n0 [tes [H1 H2]]]. exists n0, tes. auto.
  Qed.

  (** The shape of a step. *)
  Inductive shape (now : time) (s : process Schedule Zone) (ev : app_event Schedule Zone) (s' : process Schedule Zone) : Prop :=
  | sh_new b : ev = ANew b -> pr_tasks s' = pr_tasks s ->
      pr_rexecutors s' = pr_rexecutors s ++ [mk_rexecutor b false (Owned false)] -> pr_cell s' = pr_cell s -> shape now s ev s'
  | sh_spawn h r g new : nth_error (pr_rexecutors s) h = Some r -> rx_slot r = Owned g ->
      pr_rexecutors s' = pr_rexecutors s -> pr_cell s' = pr_cell s -> pr_tasks s' = pr_tasks s ++ new ->
      (forall t, In t new -> ta_token t = h /\ ta_backend t = rx_backend r /\ just_started now t /\
         match ta_body t with BWorker _ w => w = worker_start | BCron _ _ _ _ k | BPruner _ _ k => k = ticker_start now end) ->
      map (fun t => (ta_token t, purpose t)) new = asked utc ev ->
      (forall h', ~ shuts h' ev) -> (forall b, ev <> ANew b) -> (forall h', ev <> ASetGlobal h') -> shape now s ev s'
  | sh_cancel h r : nth_error (pr_rexecutors s) h = Some r -> shuts h ev -> rx_slot r <> Gone ->
      pr_rexecutors s' = set_nth h (mk_rexecutor (rx_backend r) true Gone) (pr_rexecutors s) ->
      pr_tasks s' = map (told show h) (pr_tasks s) -> pr_cell s' = pr_cell s -> shape now s ev s'
  | sh_slot h r sl : nth_error (pr_rexecutors s) h = Some r -> (exists g, rx_slot r = Owned g) ->
      pr_rexecutors s' = set_nth h (mk_rexecutor (rx_backend r) (rx_cancelled r) sl) (pr_rexecutors s) ->
      pr_tasks s' = pr_tasks s ->
      (ev = ASetGlobal h /\ (pr_cell s = None /\ pr_cell s' = Some (rx_backend r) /\ sl = Owned true
                             \/ pr_cell s <> None /\ pr_cell s' = pr_cell s /\ sl = Gone)
       \/ pr_cell s' = pr_cell s /\ (ev = AGuard h /\ sl = Guard \/ ev = ADrop h /\ sl = Gone)) -> shape now s ev s'
  | sh_task i t t' : nth_error (pr_tasks s) i = Some t ->
      pr_rexecutors s' = pr_rexecutors s -> pr_cell s' = pr_cell s -> pr_tasks s' = set_nth i t' (pr_tasks s) ->
      ((exists e, ev = AWorker i e /\ worker_task_step show t e = Some t')
       \/ (exists e, ev = ATick i e /\ tick_task_step utc upcoming (token_cancelled t s) t e = Some t')) -> shape now s ev s'.

  Lemma step_shape now s ev s' r : step now s ev = Some (s', r) -> shape now s ev s'.
  Proof.
    intro H. destruct ev as [b|h|h e|h e sc data|h e sc data z|h sc cfg|h|h|h|h|i e|i e]; cbn [app_step] in H.
    - injection H as <- _. eapply sh_new; reflexivity.
    - unfold owned in H. destruct (nth_error (pr_rexecutors s) h) as [x|] eqn:En; [|discriminate].
      destruct (rx_slot x) as [g| |] eqn:Es; try discriminate. destruct g; [discriminate|].
      assert (Hs : s' = fst (app_set_global h x s)) by (injection H as ->; reflexivity). subst s'. clear H.
      unfold app_set_global, g_set. cbn [g_cell]. destruct (pr_cell s) as [b|] eqn:Ec; cbn [fst].
      + eapply sh_slot with (sl := Gone); try reflexivity; eauto. left. split; [reflexivity|]. right.
        rewrite Ec. split; [discriminate|]. split; reflexivity.
      + eapply sh_slot with (sl := Owned true); try reflexivity; eauto. left. split; [reflexivity|]. left. auto.
    - unfold with_owned, owned in H. destruct (nth_error (pr_rexecutors s) h) as [x|] eqn:En; [|discriminate].
      destruct (rx_slot x) as [g| |] eqn:Es; try discriminate. injection H as <- _.
      eapply sh_spawn with (new := [_]); try reflexivity; eauto.
      + intros t [<-|[]]. cbn. repeat split; reflexivity.
      + intros h' [K|K]; discriminate.
      + discriminate.
      + discriminate.
    - unfold with_owned, owned in H. destruct (nth_error (pr_rexecutors s) h) as [x|] eqn:En; [|discriminate].
      destruct (rx_slot x) as [g| |] eqn:Es; try discriminate. injection H as <- _.
      unfold app_cron, app_cron_in, app_executor, app_spawn. cbn [pr_tasks pr_rexecutors pr_cell]. 
      eapply sh_spawn with (new := [_;_]); cbn [pr_tasks pr_rexecutors pr_cell]; try rewrite <- app_assoc; try reflexivity; eauto.
      + intros t [<-|[<-|[]]]; cbn; repeat split; reflexivity.
      + intros h' [K|K]; discriminate.
      + discriminate.
      + discriminate.
    - unfold with_owned, owned in H. destruct (nth_error (pr_rexecutors s) h) as [x|] eqn:En; [|discriminate].
      destruct (rx_slot x) as [g| |] eqn:Es; try discriminate. injection H as <- _.
      unfold app_cron_in, app_executor, app_spawn. cbn [pr_tasks pr_rexecutors pr_cell]. 
      eapply sh_spawn with (new := [_;_]); cbn [pr_tasks pr_rexecutors pr_cell]; try rewrite <- app_assoc; try reflexivity; eauto.
      + intros t [<-|[<-|[]]]; cbn; repeat split; reflexivity.
      + intros h' [K|K]; discriminate.
      + discriminate.
      + discriminate.
    - unfold with_owned, owned in H. destruct (nth_error (pr_rexecutors s) h) as [x|] eqn:En; [|discriminate].
      destruct (rx_slot x) as [g| |] eqn:Es; try discriminate. injection H as <- _.
      eapply sh_spawn with (new := [_]); try reflexivity; eauto.
      + intros t [<-|[]]. cbn. repeat split; reflexivity.
      + intros h' [K|K]; discriminate.
      + discriminate.
      + discriminate.
    - unfold with_owned, owned in H. destruct (nth_error (pr_rexecutors s) h) as [x|] eqn:En; [|discriminate].
      destruct (rx_slot x) as [g| |] eqn:Es; try discriminate. injection H as <- _.
      eapply sh_cancel; try reflexivity; eauto; [left; reflexivity|congruence].
    - unfold with_owned, owned in H. destruct (nth_error (pr_rexecutors s) h) as [x|] eqn:En; [|discriminate].
      destruct (rx_slot x) as [g| |] eqn:Es; try discriminate. injection H as <- _.
      eapply sh_slot; try reflexivity; eauto; right; cbn; auto.
    - unfold with_owned, owned in H. destruct (nth_error (pr_rexecutors s) h) as [x|] eqn:En; [|discriminate].
      destruct (rx_slot x) as [g| |] eqn:Es; try discriminate. injection H as <- _.
      eapply sh_slot; try reflexivity; eauto; right; cbn; auto.
    - destruct (nth_error (pr_rexecutors s) h) as [x|] eqn:En; [|discriminate].
      destruct (rx_slot x) eqn:Es; try discriminate. injection H as <- _.
      eapply sh_cancel; try reflexivity; eauto; [right; reflexivity|congruence].
    - destruct (nth_error (pr_tasks s) i) as [t|] eqn:En; [|discriminate].
      destruct (worker_task_step show t e) as [t'|] eqn:E; [|discriminate]. injection H as <- _.
      eapply sh_task; try reflexivity; eauto.
    - destruct (nth_error (pr_tasks s) i) as [t|] eqn:En; [|discriminate].
      destruct (tick_task_step utc upcoming (token_cancelled t s) t e) as [t'|] eqn:E; [|discriminate]. injection H as <- _.
      eapply sh_task; try reflexivity; eauto.
  Qed.

  (** * The invariant *)
  Record inv (es : list (time * app_event Schedule Zone)) (s : process Schedule Zone) : Prop := mk_inv {
    i_made : map rx_backend (pr_rexecutors s) = made es;
    i_tasks : map (fun t => (ta_token t, purpose t)) (pr_tasks s) = flat_map (fun x => asked utc (snd x)) es;
    i_backend : forall t, In t (pr_tasks s) -> nth_error (made es) (ta_token t) = Some (ta_backend t);
    i_cancel : forall h r, nth_error (pr_rexecutors s) h = Some r -> rx_cancelled r = true <-> shut h es;
    i_gone : forall h r, nth_error (pr_rexecutors s) h = Some r -> rx_cancelled r = true -> rx_slot r = Gone;
    i_shut : forall h, shut h es -> (h < length (pr_rexecutors s))%nat;
    i_ok : forall t, In t (pr_tasks s) -> task_ok (token_cancelled t s) t
  }.

  Lemma made_snoc es now (ev : app_event Schedule Zone) : made (es ++ [(now, ev)]) = made es ++ match ev with ANew b => [b] | _ => [] end.
  Proof. unfold made. rewrite flat_map_app. cbn. now rewrite app_nil_r. Qed.
  Lemma shut_snoc h es now (ev : app_event Schedule Zone) : shut h (es ++ [(now, ev)]) <-> shut h es \/ shuts h ev.
  Proof.
    unfold shut. split.
    - intros [n [e [H K]]]. apply in_app_or in H. destruct H as [H|[H|[]]]; [left; eauto|]. injection H as -> ->. auto.
    - intros [[n [e [H K]]]|K]; [exists n, e|exists now, ev]; (split; [apply in_or_app; cbn; auto|exact K]).
  Qed.
  Lemma shuts_eq h h' (ev : app_event Schedule Zone) : shuts h ev -> shuts h' ev -> h = h'.
  Proof. intros [->| ->] [K|K]; congruence. Qed.

  Lemma nth_lt {A} (l : list A) n x : nth_error l n = Some x -> (n < length l)%nat.
  Proof. intro H. apply nth_error_Some. congruence. Qed.

  Lemma inv_step es s now ev s' r : inv es s -> step now s ev = Some (s', r) -> inv (es ++ [(now, ev)]) s'.
  Proof.
    intros [Hm Ht Hb Hc Hg Hs Hok] Hst. apply step_shape in Hst.
    assert (Ha : flat_map (fun x => asked utc (snd x)) (es ++ [(now, ev)])
                 = flat_map (fun x => asked utc (snd x)) es ++ asked utc ev)
      by (rewrite flat_map_app; cbn; now rewrite app_nil_r).
    destruct Hst as [b -> E1 E2 E3 | h x g new En Es E2 E3 E1 Hn Has Hns Hnn _ | h x En Hsh Hng E2 E1 E3
                    | h x sl En [g Hog] E2 E1 Hev | i t t' En E2 E3 E1 Hev].
    - assert (L : forall h y, nth_error (pr_rexecutors s) h = Some y -> nth_error (pr_rexecutors s') h = Some y).
      { intros h y Hy. rewrite E2, nth_error_app1; [exact Hy|eapply nth_lt; exact Hy]. }
      assert (R : forall h y, nth_error (pr_rexecutors s') h = Some y ->
                nth_error (pr_rexecutors s) h = Some y \/ h = length (pr_rexecutors s) /\ y = mk_rexecutor b false (Owned false)).
      { intros h y Hy. rewrite E2 in Hy. destruct (Nat.lt_ge_cases h (length (pr_rexecutors s))) as [Hl|Hl].
        - rewrite nth_error_app1 in Hy by exact Hl. auto.
        - rewrite nth_error_app2 in Hy by exact Hl. right. destruct (h - length (pr_rexecutors s))%nat as [|k] eqn:Ek.
          + cbn in Hy. injection Hy as <-. split; [lia|reflexivity].
          + cbn in Hy. destruct k; discriminate. }
      constructor.
      + rewrite E2, map_app, Hm, made_snoc. reflexivity.
      + rewrite E1, Ha, Ht. cbn. now rewrite app_nil_r.
      + intros t Hin. rewrite E1 in Hin. rewrite made_snoc. rewrite nth_error_app1; [auto|]. eapply nth_lt. auto.
      + intros h y Hy. rewrite shut_snoc. destruct (R h y Hy) as [Hy'|[-> ->]].
        * rewrite (Hc h y Hy'). split; [auto|]. intros [K|[K|K]]; [exact K|discriminate|discriminate].
        * cbn. split; [discriminate|]. intros [K|[K|K]]; [|discriminate|discriminate]. apply Hs in K. lia.
      + intros h y Hy Hcx. destruct (R h y Hy) as [Hy'|[-> ->]]; [eauto|discriminate].
      + intros h K. apply shut_snoc in K. rewrite E2, app_length. cbn. destruct K as [K|[K|K]]; [|discriminate|discriminate].
        apply Hs in K. lia.
      + intros t Hin. rewrite E1 in Hin. replace (token_cancelled t s') with (token_cancelled t s); [auto|].
        unfold token_cancelled. specialize (Hb t Hin). rewrite <- Hm in Hb. rewrite nth_error_map in Hb.
        destruct (nth_error (pr_rexecutors s) (ta_token t)) as [y|] eqn:Ey; [|discriminate]. rewrite (L _ _ Ey). reflexivity.
    - assert (Hmd : made (es ++ [(now, ev)]) = made es).
      { rewrite made_snoc. destruct ev; try apply app_nil_r. destruct (Hnn backend); reflexivity. }
      assert (Hsd : forall h', shut h' (es ++ [(now, ev)]) <-> shut h' es).
      { intro h'. rewrite shut_snoc. split; [intros [K|K]; [exact K|destruct (Hns h' K)]|auto]. }
      constructor.
      + rewrite E2, Hmd. exact Hm.
      + rewrite E1, map_app, Ht, Ha, Has. reflexivity.
      + intros t Hin. rewrite Hmd. rewrite E1 in Hin. apply in_app_or in Hin. destruct Hin as [Hin|Hin]; [auto|].
        destruct (Hn t Hin) as [-> [-> _]]. rewrite <- Hm, nth_error_map, En. reflexivity.
      + intros h' y Hy. rewrite Hsd. rewrite E2 in Hy. auto.
      + intros h' y Hy. rewrite E2 in Hy. eauto.
      + intros h' K. rewrite E2. apply Hs, Hsd, K.
      + intros t Hin. assert (Hcx : forall t, token_cancelled t s' = token_cancelled t s) by (intro; unfold token_cancelled; now rewrite E2).
        rewrite Hcx. rewrite E1 in Hin. apply in_app_or in Hin. destruct Hin as [Hin|Hin]; [auto|].
        destruct (Hn t Hin) as [Htk [_ [_ Hbody]]]. unfold token_cancelled. rewrite Htk, En.
        destruct (rx_cancelled x) eqn:Ecx; [rewrite (Hg h x En Ecx) in Es; discriminate|].
        unfold task_ok. destruct (ta_body t) as [e w|e sc z data k|sc cfg k]; subst.
        * exists []. split; [reflexivity|]. split; [intros []|reflexivity].
        * exists now, []. split; [reflexivity|intros []].
        * exists now, []. split; [reflexivity|intros []].
    - assert (Hmd : made (es ++ [(now, ev)]) = made es) by (rewrite made_snoc; destruct Hsh as [-> | ->]; apply app_nil_r).
      assert (Hask : asked utc ev = []) by (destruct Hsh as [-> | ->]; reflexivity).
      assert (Hcx : forall t, token_cancelled t s' = if Nat.eqb (ta_token t) h then true else token_cancelled t s).
      { intro t. unfold token_cancelled. rewrite E2. destruct (Nat.eqb_spec (ta_token t) h) as [->|Hne].
        - now rewrite (nth_set_same _ _ _ _ En).
        - rewrite nth_set_nth_other by congruence. reflexivity. }
      assert (R : forall h' y, nth_error (pr_rexecutors s') h' = Some y ->
                h' = h /\ y = mk_rexecutor (rx_backend x) true Gone \/ h' <> h /\ nth_error (pr_rexecutors s) h' = Some y).
      { intros h' y Hy. rewrite E2 in Hy. destruct (Nat.eq_dec h' h) as [->|Hne].
        - rewrite (nth_set_same _ _ _ _ En) in Hy. left. split; congruence.
        - rewrite nth_set_nth_other in Hy by congruence. auto. }
      constructor.
      + rewrite E2, Hmd. erewrite map_set_nth; [exact Hm|exact En|reflexivity].
      + rewrite E1, Ha, Hask, app_nil_r, map_map, <- Ht. apply map_ext. intro t.
        destruct (told_same h t) as [-> [_ ->]]. reflexivity.
      + intros t Hin. rewrite Hmd. rewrite E1 in Hin. apply in_map_iff in Hin. destruct Hin as [t0 [<- Hin]].
        destruct (told_same h t0) as [-> [-> _]]. auto.
      + intros h' y Hy. rewrite shut_snoc. destruct (R h' y Hy) as [[-> ->]|[Hne Hy']].
        * cbn. tauto.
        * rewrite (Hc h' y Hy'). split; [auto|]. intros [K|K]; [exact K|]. destruct Hne. eapply shuts_eq; eassumption.
      + intros h' y Hy. destruct (R h' y Hy) as [[-> ->]|[Hne Hy']]; [reflexivity|eauto].
      + intros h' K. rewrite E2, set_nth_length. apply shut_snoc in K. destruct K as [K|K]; [auto|].
        rewrite (shuts_eq h' h ev K Hsh). eapply nth_lt, En.
      + intros t Hin. rewrite Hcx. rewrite E1 in Hin. apply in_map_iff in Hin. destruct Hin as [t0 [<- Hin]].
        destruct (told_same h t0) as [Htk _]. rewrite Htk. destruct (Nat.eqb_spec (ta_token t0) h) as [He|He].
        * eapply told_ok; [apply Hok, Hin|exact He].
        * replace (token_cancelled (told show h t0) s) with (token_cancelled t0 s) by (unfold token_cancelled; now rewrite Htk).
          rewrite (told_other h t0 He). auto.
    - assert (Hev2 : (ev = ASetGlobal h \/ ev = AGuard h \/ ev = ADrop h)) by (destruct Hev as [[-> _]|[_ [[-> _]|[-> _]]]]; auto).
      assert (Hmd : made (es ++ [(now, ev)]) = made es) by (rewrite made_snoc; destruct Hev2 as [-> |[-> | ->]]; apply app_nil_r).
      assert (Hask : asked utc ev = []) by (destruct Hev2 as [-> |[-> | ->]]; reflexivity).
      assert (Hsd : forall h', shut h' (es ++ [(now, ev)]) <-> shut h' es).
      { intro h'. rewrite shut_snoc. split; [intros [K|[K|K]]; [exact K|destruct Hev2 as [-> |[-> | ->]]; discriminate..]|auto]. }
      assert (R : forall h' y, nth_error (pr_rexecutors s') h' = Some y ->
                exists y0, nth_error (pr_rexecutors s) h' = Some y0 /\ rx_cancelled y = rx_cancelled y0
                  /\ (h' = h \/ y = y0)).
      { intros h' y Hy. rewrite E2 in Hy. destruct (Nat.eq_dec h' h) as [->|Hne].
        - rewrite (nth_set_same _ _ _ _ En) in Hy. injection Hy as <-. exists x. auto.
        - rewrite nth_set_nth_other in Hy by congruence. exists y. auto. }
      constructor.
      + rewrite E2, Hmd. erewrite map_set_nth; [exact Hm|exact En|reflexivity].
      + rewrite E1, Ha, Hask, app_nil_r. exact Ht.
      + intros t Hin. rewrite Hmd. rewrite E1 in Hin. auto.
      + intros h' y Hy. rewrite Hsd. destruct (R h' y Hy) as [y0 [Hy0 [-> _]]]. auto.
      + intros h' y Hy Hcx. destruct (R h' y Hy) as [y0 [Hy0 [Hyc [->| ->]]]]; [|eauto].
        rewrite Hcx in Hyc. specialize (Hg h y0 Hy0 (eq_sym Hyc)). assert (y0 = x) by congruence. congruence.
      + intros h' K. rewrite E2, set_nth_length. apply Hs, Hsd, K.
      + intros t Hin. rewrite E1 in Hin. replace (token_cancelled t s') with (token_cancelled t s); [auto|].
        unfold token_cancelled. rewrite E2. destruct (Nat.eq_dec (ta_token t) h) as [->|Hne].
        * rewrite (nth_set_same _ _ _ _ En), En. reflexivity.
        * rewrite nth_set_nth_other by congruence. reflexivity.
    - assert (Hmd : made (es ++ [(now, ev)]) = made es) by (rewrite made_snoc; destruct Hev as [[e [-> _]]|[e [-> _]]]; apply app_nil_r).
      assert (Hask : asked utc ev = []) by (destruct Hev as [[e [-> _]]|[e [-> _]]]; reflexivity).
      assert (Hsd : forall h', shut h' (es ++ [(now, ev)]) <-> shut h' es).
      { intro h'. rewrite shut_snoc. split; [intros [K|[K|K]]; [exact K|destruct Hev as [[e [-> _]]|[e [-> _]]]; discriminate..]|auto]. }
      assert (Hin0 : In t (pr_tasks s)) by (eapply nth_error_In, En).
      assert (Hcx : forall t, token_cancelled t s' = token_cancelled t s) by (intro; unfold token_cancelled; now rewrite E2).
      assert (H' : task_ok (token_cancelled t s) t' /\ ta_token t' = ta_token t /\ ta_backend t' = ta_backend t /\ purpose t' = purpose t).
      { destruct Hev as [[e [_ Hw]]|[e [_ Hw]]]; [eapply worker_task_ok|eapply tick_task_ok]; eauto. }
      destruct H' as [K1 [K2 [K3 K4]]].
      constructor.
      + rewrite E2, Hmd. exact Hm.
      + rewrite E1, Ha, Hask, app_nil_r. erewrite map_set_nth; [exact Ht|exact En|]. cbn. now rewrite K2, K4.
      + intros y Hin. rewrite Hmd. rewrite E1 in Hin. apply in_set_nth in Hin. destruct Hin as [->|Hin]; [|auto].
        rewrite K2, K3. auto.
      + intros h' y Hy. rewrite Hsd. rewrite E2 in Hy. auto.
      + intros h' y Hy. rewrite E2 in Hy. eauto.
      + intros h' K. rewrite E2. apply Hs, Hsd, K.
      + intros y Hin. rewrite Hcx. rewrite E1 in Hin. apply in_set_nth in Hin. destruct Hin as [->|Hin]; [|auto].
        replace (token_cancelled t' s) with (token_cancelled t s); [exact K1|]. unfold token_cancelled. now rewrite K2.
  Qed.

  Lemma inv_init : inv [] process_init.
  Proof.
    constructor; cbn; try reflexivity.
    - intros t [].
    - intros h r H. destruct h; discriminate.
    - intros h r H. destruct h; discriminate.
    - intros h [n [e [[] _]]].
    - intros t [].
  Qed.
  Lemma run_inv : forall es s rs, run process_init es = Some (s, rs) -> inv es s.
  Proof.
    intro es. induction es as [|[now ev] es IH] using rev_ind; intros s rs H.
    - cbn in H. injection H as <- _. apply inv_init.
    - destruct (run_app_split _ _ _ _ _ H) as [s1 [r1 [r2 [H1 [H2 _]]]]]. specialize (IH _ _ H1).
      cbn [app_run] in H2. destruct (step now s1 ev) as [[s2 r]|] eqn:E; [|discriminate]. injection H2 as <- _.
      eapply inv_step; eassumption.
  Qed.
End Proofs.
