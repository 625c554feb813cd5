(** Theorems about whole programs on in-memory backends, from the invariant. *)
From Coq Require Import Lia Permutation.
From Verif Require Import Base Chrono Types Query Memory MemSpec MemProofs MemNotify MemConc MemConcSpec MemConcProofs MemConcThms MemWake Codec Builder
  Runner RunnerSpec WorkerProofs Ticker Pruner ApiProofs App AppSpec AppProofs World WorldSpec WorldProofs WorldInv.

Lemma load_executor p now m ex m' j : mem_load p now m ex = (m', Ok (Some j)) -> j_executor j = ex.
Proof.
  intro H. destruct (m_poisoned m) eqn:Hp; [unfold mem_load in H; rewrite Hp in H; discriminate|].
  pose proof (mem_load_spec p now m ex Hp) as S. rewrite H in S.
  destruct S as [pre [k [post [_ [[S1 _] [S2 _]]]]]]. unfold job_executing in S2.
  destruct (i32_arith p _); [|discriminate]. injection S2 as <-. exact S1.
Qed.

(** A job goes to a stream of its executor. *)
Lemma hand_out_executor p ls k j : In (EvHandOut k j) (conc_trace p c_init ls) -> nth_error (names_of ls) k = Some (j_executor j).
Proof.
  induction ls as [|l ls IH] using rev_ind; intro H; [destruct H|]. rewrite trace_snoc in H. rewrite names_snoc.
  apply in_app_or in H. destruct H as [H|H].
  - specialize (IH H). rewrite nth_error_app1; [exact IH|eapply nth_lt; exact IH].
  - destruct (store_run p ls) as [I1 [_ [I3 I4]]]. cbn zeta in I1, I3, I4.
    destruct (proj2 (proj2 (proj2 (store_step p _ l I1 I4))) k j H) as [F1 [F2 [[now ->] F3]]].
    cbn [new_sub]. rewrite app_nil_r. cbn [conc_step] in F1, F3.
    destruct (nth_error (c_streams (conc_run p c_init ls)) k) as [ph|] eqn:Ek; [|discriminate].
    destruct (nth_error (m_subs (c_mem (conc_run p c_init ls))) k) as [sb|] eqn:Es; [|discriminate].
    rewrite <- I3. rewrite (map_nth_error sub_executor _ _ Es). f_equal. symmetry.
    unfold stream_step in F3. destruct ph as [|t|t rd d|t rd d|t rd sl d|r|]; try discriminate.
    + destruct (next_available _ _); discriminate.
    + destruct (mem_load p now (c_mem (conc_run p c_init ls)) (sub_executor sb)) as [m1 [[j0|]|err|]] eqn:El; try discriminate.
      injection F3 as <-. eapply load_executor. exact El.
Qed.

Lemma flat_map_map {A B C} (f : B -> list C) (g : A -> B) l : flat_map f (map g l) = flat_map (fun x => f (g x)) l.
Proof. induction l as [|x l IH]; cbn; [reflexivity|]. now rewrite IH. Qed.
Lemma flat_map_ext' {A B} (f g : A -> list B) l : (forall x, f x = g x) -> flat_map f l = flat_map g l.
Proof. intro H. induction l as [|x l IH]; cbn; [reflexivity|]. now rewrite H, IH. Qed.
Lemma own_calls_filter l : own_calls l = filter callable l.
Proof. unfold own_calls. induction l as [|o l IH]; cbn [flat_map filter]; [reflexivity|]. rewrite IH. destruct o; reflexivity. Qed.

(** A call that is done has a result of its kind. *)
Definition fits (o : mop) (r : mres) : Prop :=
  match o, r with
  | OpEnqueue _, RId _ => True
  | (OpComplete _ | OpDiscarded _ _ | OpCancelled _ _ | OpRetryable _ _ _ | OpSnoozed _ _ | OpRerun _ | OpUpdate _ | OpPrune _), RUnit _ => True
  | (OpEnqueue _ | OpComplete _ | OpDiscarded _ _ | OpCancelled _ _ | OpRetryable _ _ _ | OpSnoozed _ _ | OpRerun _ | OpUpdate _ | OpPrune _), _ => False
  | _, _ => True
  end.

Lemma mem_step_fits p now m o : fits o (snd (mem_step p now m o)).
Proof.
  destruct o; cbn [mem_step fits]; try exact Logic.I;
    repeat match goal with |- context [let (_, _) := ?x in _] => destruct x end; exact Logic.I.
Qed.

Lemma done_fits p ls c r : In c (c_calls (conc_run p c_init ls)) -> cl_pc c = PcDone r -> fits (cl_op c) r.
Proof.
  revert c r. induction ls as [|l ls IH] using rev_ind; intros c r Hc Hr; [destruct Hc|].
  rewrite conc_run_app in Hc. cbn [conc_run] in Hc. set (s := conc_run p c_init ls) in *.
  destruct l as [o|i now|ex|k now|k]; cbn [conc_step] in Hc.
  - assert (K : In c (c_calls s ++ [mk_call o PcStart None]) \/ In c (c_calls s)) by (destruct o; cbn in Hc; auto).
    destruct K as [K|K]; [|eauto]. apply in_app_or in K. destruct K as [K|[<-|[]]]; [eauto|discriminate].
  - destruct (nth_error (c_calls s) i) as [c0|] eqn:En; [|eauto].
    destruct (call_step p i now (c_mem s) c0) as [[m' c'] ev] eqn:Ec. cbn [fst c_calls] in Hc.
    apply in_set_nth in Hc. destruct Hc as [->|Hc]; [|eauto].
    assert (IH0 : forall r, cl_pc c0 = PcDone r -> fits (cl_op c0) r) by (intros; eapply IH; [eapply nth_error_In; exact En|assumption]).
    clear En IH. unfold call_step in Ec. destruct c0 as [o pc0 cid]. cbn [cl_pc cl_op cl_id] in *.
    destruct pc0 as [| |id|id|j|r0].
    + destruct (is_enq o) eqn:Eo.
      * destruct o; try discriminate Eo. destruct (eq_criteria e); [destruct (matching_jobs _ _) as [[|]|err|]|];
          injection Ec as <- <- <-; cbn in Hr |- *; try discriminate; injection Hr as <-; exact Logic.I.
      * assert (H' : (let (m', r) := mem_step p now (c_mem s) o in (m', mk_call o (PcDone r) cid, [EvApply i now o r])) = (m', c', ev))
          by (destruct o; exact Ec || discriminate Eo).
        pose proof (mem_step_fits p now (c_mem s) o) as F. destruct (mem_step p now (c_mem s) o) as [m1 r1].
        injection H' as <- <- <-. cbn in Hr |- *. injection Hr as <-. exact F.
    + destruct o; injection Ec as <- <- <-; cbn in Hr; discriminate.
    + destruct o; [destruct (m_poisoned (c_mem s))|..]; injection Ec as <- <- <-; cbn in Hr |- *; try discriminate.
      injection Hr as <-. exact Logic.I.
    + destruct o; injection Ec as <- <- <-; cbn in Hr |- *; try discriminate. injection Hr as <-. exact Logic.I.
    + destruct o; [destruct (mem_update (c_mem s) j) as [m1 r1]|..]; injection Ec as <- <- <-; cbn in Hr |- *; try discriminate.
      injection Hr as <-. exact Logic.I.
    + assert (c' = mk_call o (PcDone r0) cid) as -> by (destruct o; congruence). cbn in Hr |- *. auto.
  - eauto.
  - destruct (nth_error (c_streams s) k) as [ph|]; [|eauto]. destruct (nth_error (m_subs (c_mem s)) k) as [sb|]; [|eauto].
    destruct (stream_step p k now (c_mem s) sb ph) as [[m' ph'] ev]. eauto.
  - destruct (nth_error (c_streams s) k) as [[| | | |t rd sl d| |]|]; eauto.
    destruct (nth_error (m_subs (c_mem s)) k) as [sb|]; eauto. destruct (sub_queue sb); eauto.
Qed.

Lemma filter_flat {A B} (P : B -> bool) (f : A -> list B) l : filter P (flat_map f l) = flat_map (fun x => filter P (f x)) l.
Proof. induction l as [|x l IH]; cbn; [reflexivity|]. now rewrite filter_app, IH. Qed.
Lemma flat_filter {A B} (P : A -> bool) (f : A -> list B) l : flat_map f (filter P l) = flat_map (fun x => if P x then f x else []) l.
Proof. induction l as [|x l IH]; cbn; [reflexivity|]. destruct (P x); cbn; now rewrite IH. Qed.
Lemma rev_flat {A B} (f : A -> list B) l : (forall x, rev (f x) = f x) -> rev (flat_map f l) = flat_map f (rev l).
Proof.
  intro H. induction l as [|x l IH]; cbn; [reflexivity|]. rewrite rev_app_distr, flat_map_app, IH, H. cbn. now rewrite app_nil_r.
Qed.
Lemma map_eq_filter {A B} (g : A -> B) (P : A -> bool) (Q : B -> bool) l : (forall a, Q (g a) = P a) ->
  map g (filter P l) = filter Q (map g l).
Proof. intro H. induction l as [|x l IH]; cbn; [reflexivity|]. rewrite H. destruct (P x); cbn; now rewrite IH. Qed.
Lemma filter_filter {A} (P Q : A -> bool) l : filter Q (filter P l) = filter (fun x => P x && Q x) l.
Proof. induction l as [|x l IH]; cbn; [reflexivity|]. destruct (P x); cbn; [destruct (Q x); cbn|]; now rewrite IH. Qed.

(** The reports of message [n]. *)
Lemma reports_story n w : filter (fun x => Nat.eqb (fst x) n) (reports w)
  = flat_map (fun o => match o with Reported k op => [(k, op)] | _ => [] end) (story n w).
Proof.
  unfold reports, story. rewrite rev_flat by (intros []; reflexivity). rewrite filter_flat, flat_filter.
  apply flat_map_ext'. intros [k m|k x|k o|k op]; cbn; try (destruct (Nat.eqb k n); reflexivity).
Qed.

Section Thms.
  Context {Schedule Zone : Type}.
  Variable utc : Zone.
  Variable upcoming : Schedule -> Zone -> time -> option time.
  Variable show : Z -> string.
  Variable hash : forall e : executor, xe_data e -> Z.
  Variable p : profile.
  Notation world := (world Schedule Zone).
  Notation run := (app_run utc upcoming show).
  Notation tsk := (task Schedule Zone).
  Notation wstep e := (worker_step (xe_codec e) (xe_fns e) show (ex_max_concurrency (xe_consts e))).
  Notation onp := (on_process utc upcoming show).
  Notation ons := (on_store (Schedule := Schedule) (Zone := Zone) p).
  Notation vstep := (world_step utc upcoming show hash p).
  Notation vrun := (world_run utc upcoming show hash p).
  Notation link w es := (inv_link (Schedule := Schedule) (Zone := Zone) hash p w (fun b => outside b es)).

  Lemma vrun_app es1 : forall es2 w, vrun w (es1 ++ es2) = match vrun w es1 with Some w1 => vrun w1 es2 | None => None end.
  Proof.
    induction es1 as [|[now ev] es1 IH]; intros es2 w; cbn [app world_run]; [reflexivity|].
    destruct (vstep now w ev); [apply IH|reflexivity].
  Qed.

  (** * The log *)
  Lemma not_of_tasks_app l l' : not_of_tasks (Schedule := Schedule) (Zone := Zone) (l ++ l') = not_of_tasks l ++ not_of_tasks l'.
  Proof. apply filter_app. Qed.

  Lemma ons_log now b l w w' : ons now b l w = Some w' -> wd_log w' = wd_log w ++ [(now, OnStore b l)].
  Proof. unfold on_store. destruct (nth_error _ _); [|discriminate]. intro H. injection H as <-. reflexivity. Qed.
  Lemma onp_log now ev w w' : onp now ev w = Some w' -> wd_log w' = wd_log w ++ [(now, OnProcess ev)].
  Proof. unfold on_process. destruct (app_step _ _ _ _ _ _) as [[s r]|]; [|discriminate]. intro H. injection H as <-. reflexivity. Qed.
  Lemma ask_log now i n b o (w w' : world) : ask_for p now i n b o w = Some w' -> process_events (wd_log w') = process_events (wd_log w).
  Proof.
    unfold ask_for. destruct (nth_error _ _); [|discriminate]. destruct (ons now b (LCall o) w) as [w1|] eqn:E; [|discriminate].
    intro H. injection H as <-. cbn [wd_log]. rewrite (ons_log _ _ _ _ _ E), process_events_snoc. apply app_nil_r.
  Qed.
  Lemma ask_all_log now i n b : forall l (w w' : world), ask_all p now i n b l w = Some w' -> process_events (wd_log w') = process_events (wd_log w).
  Proof.
    induction l as [|o l IH]; intros w w' H; cbn [ask_all] in H; [congruence|].
    destruct (ask_for p now i n b o w) as [w1|] eqn:E; [|discriminate]. rewrite (IH _ _ H). eapply ask_log. exact E.
  Qed.
  Lemma connect_log now : forall l (w w' : world), connect_all p now l w = Some w' -> process_events (wd_log w') = process_events (wd_log w).
  Proof.
    induction l as [|t l IH]; intros w w' H; cbn [connect_all] in H; [congruence|].
    destruct (connect p now t w) as [w1|] eqn:E; [|discriminate]. rewrite (IH _ _ H). unfold connect in E.
    destruct (ta_body t); [|injection E as <-; reflexivity..].
    destruct (nth_error _ _); [|discriminate]. destruct (ons now _ _ w) as [w2|] eqn:E2; [|discriminate].
    injection E as <-. cbn [wd_log]. rewrite (ons_log _ _ _ _ _ E2), process_events_snoc. apply app_nil_r.
  Qed.

  Lemma step_program now w ev w' : vstep now w ev = Some w' ->
    not_of_tasks (process_events (wd_log w')) = not_of_tasks (process_events (wd_log w)) ++ program [(now, ev)].
  Proof.
    intro H.
    assert (Ht : forall e w w', onp now e w = Some w' -> match e with AWorker _ _ | ATick _ _ => True | _ => False end ->
              not_of_tasks (process_events (wd_log w')) = not_of_tasks (process_events (wd_log w))).
    { intros e w0 w1 E He. rewrite (onp_log _ _ _ _ E), process_events_snoc, not_of_tasks_app.
      destruct e; try destruct He; apply app_nil_r. }
    assert (Hs : forall b l w w', ons now b l w = Some w' -> not_of_tasks (process_events (wd_log w')) = not_of_tasks (process_events (wd_log w))).
    { intros b l w0 w1 E. rewrite (ons_log _ _ _ _ _ E), process_events_snoc, app_nil_r. reflexivity. }
    assert (Hv : forall e w w', onp now e w = Some w' -> match e with AWorker _ _ | ATick _ _ => False | _ => True end ->
              not_of_tasks (process_events (wd_log w')) = not_of_tasks (process_events (wd_log w)) ++ [(now, e)]).
    { intros e w0 w1 E He. rewrite (onp_log _ _ _ _ E), process_events_snoc, not_of_tasks_app. f_equal.
      destruct e; try destruct He; reflexivity. }
    destruct ev as [|ev|b o|b i|i|i|i|i n|i n n1 n2 o|i n|i|i c0 c1|i c|i|i c|i c]; cbn [world_step] in H; cbn [program flat_map snd fst app]; rewrite ?app_nil_r;
      try (eapply Hs; eassumption); try (eapply Ht; [eassumption|exact Logic.I]).
    - injection H as <-. reflexivity.
    - unfold world_app in H.
      assert (G : forall ev, match ev with AWorker _ _ | ATick _ _ => False | _ => True end ->
        match onp now ev w with
        | Some w' => connect_all p now (skipn (length (pr_tasks (wd_process w))) (pr_tasks (wd_process w'))) w'
        | None => None end = Some w' ->
        not_of_tasks (process_events (wd_log w')) = not_of_tasks (process_events (wd_log w)) ++ [(now, ev)]).
      { intros e He K. destruct (onp now e w) as [w1|] eqn:E; [|discriminate]. rewrite (connect_log _ _ _ _ K). auto. }
      destruct ev as [b|h|h e|h e sc data|h e sc data z|h sc cfg|h|h|h|h|i e|i e]; try discriminate; try (apply G; [exact Logic.I|exact H]).
      destruct (Nat.ltb b _); [|discriminate]. apply Hv; [exact H|exact Logic.I].
    - unfold world_poll in H. destruct (nth_error (pr_tasks (wd_process w)) i) as [t|]; [|discriminate].
      destruct (nth_error (wd_streams w) i) as [[k|]|]; try discriminate. destruct (ta_body t); try discriminate.
      destruct (polls e w0); [|discriminate]. destruct (ons now (ta_backend t) (LStream k now) w) as [w1|] eqn:E; [|discriminate].
      rewrite <- (Hs _ _ _ _ E). destruct (stream_at (ta_backend t) k w1) as [[| | | | |[j|err|]|]|];
        try (injection H as <-; reflexivity); eapply Ht; (exact H || exact Logic.I).
    - unfold world_recv in H. destruct (nth_error (pr_tasks (wd_process w)) i) as [t|]; [|discriminate].
      destruct (nth_error (wd_streams w) i) as [[k|]|]; try discriminate. destruct (ta_body t); try discriminate.
      destruct (polls e w0); [|discriminate]. eapply Hs. exact H.
    - unfold world_end in H. destruct (onp now (AWorker i (WEnd n n1 n2 o)) w) as [w1|] eqn:E; [|discriminate].
      rewrite <- (Ht _ _ _ E Logic.I). destruct (nth_error (pr_tasks (wd_process w1)) i) as [t|]; [|discriminate].
      destruct (ta_body t); try (injection H as <-; reflexivity).
      destruct (flight_of n (w_flights w0)) as [[m|x|op]|]; try (injection H as <-; reflexivity). now rewrite (ask_log _ _ _ _ _ _ _ H).
    - unfold world_answer in H. destruct (replies i n w) as [|[[| | | | |[ | r| |]]|] [|]]; try discriminate. eapply Ht; [exact H|exact Logic.I].
    - unfold world_wake in H. destruct (onp now (ATick i (Wake c)) w) as [w1|] eqn:E; [|discriminate].
      rewrite <- (Ht _ _ _ E Logic.I). destruct (nth_error (pr_tasks (wd_process w1)) i) as [t|]; [|discriminate].
      destruct (firings (ta_body t)) as [|[c' next] rest]; [injection H as <-; reflexivity|]. now rewrite (ask_all_log _ _ _ _ _ _ _ H).
    - unfold world_acted in H. destruct (nth_error (pr_tasks (wd_process w)) i) as [t|]; [|discriminate].
      destruct (existsb _ _); [eapply Ht; [exact H|exact Logic.I]|]. destruct (forallb _ _); [|discriminate]. eapply Ht; [exact H|exact Logic.I].
  Qed.

  Lemma run_program : forall es w w', vrun w es = Some w' ->
    not_of_tasks (process_events (wd_log w')) = not_of_tasks (process_events (wd_log w)) ++ program es.
  Proof.
    induction es as [|[now ev] es IH]; intros w w' H; cbn [world_run] in H.
    - injection H as <-. now rewrite app_nil_r.
    - destruct (vstep now w ev) as [w1|] eqn:E; [|discriminate]. rewrite (IH _ _ H), (step_program _ _ _ _ E), <- app_assoc.
      f_equal. unfold program. cbn [flat_map]. now rewrite app_nil_r.
  Qed.

  Theorem process_thm es w : vrun world_init es = Some w ->
    exists pes rs, run process_init pes = Some (wd_process w, rs) /\ pes = process_events (wd_log w) /\ not_of_tasks pes = program es.
  Proof.
    intro H. destruct (reach_link utc upcoming show hash p es w H) as [[[rs K] _ _ _ _] _].
    exists (process_events (wd_log w)), rs. split; [exact K|]. split; [reflexivity|]. exact (run_program es _ _ H).
  Qed.

  Theorem store_thm es w b s : vrun world_init es = Some w -> nth_error (wd_stores w) b = Some s ->
    s = conc_run p c_init (labels b (wd_log w)).
  Proof. intros H Hs. destruct (reach_link utc upcoming show hash p es w H) as [K _]. exact (k_store _ _ _ _ _ K b s Hs). Qed.

  (** * Hand-outs *)
  Theorem given_thm es w b : vrun world_init es = Some w ->
    Permutation (given (conc_trace p c_init (labels b (wd_log w)))) (flat_map (taken_on b) (pr_tasks (wd_process w))).
  Proof.
    intro H. destruct (reach_link utc upcoming show hash p es w H) as [_ J]. etransitivity; [apply (j_given _ _ _ _ _ _ J)|].
    rewrite flat_map_map. erewrite flat_map_ext'; [reflexivity|]. intro t. unfold took, taken_on, tv. cbn [v_backend v_worker].
    destruct (Nat.eqb (ta_backend t) b); [|reflexivity]. destruct (ta_body t); reflexivity.
  Qed.

  Theorem stream_thm es w i t e wk : vrun world_init es = Some w ->
    nth_error (pr_tasks (wd_process w)) i = Some t -> ta_body t = BWorker e wk ->
    exists k s sb, nth_error (wd_streams w) i = Some (Some k) /\ nth_error (wd_stores w) (ta_backend t) = Some s
      /\ nth_error (m_subs (c_mem s)) k = Some sb /\ sub_executor sb = ex_name (xe_consts e) /\ (k < length (c_streams s))%nat
      /\ jobs_taken wk = handed k (conc_trace p c_init (labels (ta_backend t) (wd_log w)))
      /\ (forall j, In j (jobs_taken wk) -> j_executor j = ex_name (xe_consts e))
      /\ (forall i' t', nth_error (pr_tasks (wd_process w)) i' = Some t' -> ta_backend t' = ta_backend t ->
            nth_error (wd_streams w) i' = Some (Some k) -> i' = i).
  Proof.
    intros H Ht Eb. destruct (reach_link utc upcoming show hash p es w H) as [K J].
    destruct (j_worker _ _ _ _ _ _ J i (tv hash t) (ex_name (xe_consts e)) (jobs_taken wk)) as [k [E1 [E2 E3]]].
    { apply nth_map_tv. exact Ht. }
    { unfold tv. cbn. rewrite Eb. reflexivity. }
    assert (Hlt := k_task _ _ _ _ _ K t (nth_error_In _ _ Ht)).
    destruct (nth_error (wd_stores w) (ta_backend t)) as [s|] eqn:Es; [|apply nth_error_None in Es; lia].
    pose proof (k_store _ _ _ _ _ K _ _ Es) as Er. change (v_backend (tv hash t)) with (ta_backend t) in *.
    destruct (store_run p (LL w (ta_backend t))) as [_ [_ [N1 N2]]]. cbn zeta in N1, N2. unfold LL in *. rewrite <- Er in N1, N2.
    rewrite <- N1 in E2. rewrite nth_error_map in E2. destruct (nth_error (m_subs (c_mem s)) k) as [sb|] eqn:Esb; [|discriminate].
    cbn in E2. injection E2 as E2. exists k, s, sb. split; [exact E1|]. split; [reflexivity|]. split; [exact Esb|]. split; [exact E2|].
    split; [rewrite N2; eapply nth_lt; exact Esb|]. split; [symmetry; exact E3|]. split.
    - intros j Hj. rewrite <- E3 in Hj. apply handed_in, hand_out_executor in Hj. rewrite <- N1, (map_nth_error _ _ _ Esb) in Hj.
      injection Hj as Hj. congruence.
    - intros i' t' Ht' Hb' Hs'. eapply (j_inj _ _ _ _ _ _ J i' i (tv hash t') (tv hash t) k);
        [apply nth_map_tv; exact Ht'|apply nth_map_tv; exact Ht|exact Hb'|exact Hs'|exact E1].
  Qed.

  (** * Calls *)
  Theorem calls_thm es w b s : vrun world_init es = Some w -> nth_error (wd_stores w) b = Some s ->
    Permutation (map cl_op (c_calls s)) (filter callable (outside b es) ++ flat_map (owed_on hash b) (pr_tasks (wd_process w))).
  Proof.
    intros H Hs. destruct (reach_link utc upcoming show hash p es w H) as [K J].
    rewrite (k_store _ _ _ _ _ K b s Hs), (proj1 (proj2 (store_run p (labels b (wd_log w))))).
    etransitivity; [apply (j_calls _ _ _ _ _ _ J)|]. rewrite own_calls_filter. apply Permutation_app_head.
    rewrite flat_map_map. erewrite flat_map_ext'; [reflexivity|]. intro t. reflexivity.
  Qed.

  Theorem made_thm es w i t : vrun world_init es = Some w -> nth_error (pr_tasks (wd_process w)) i = Some t ->
    made_by w i = map (fun x => (fst x, Some (snd x))) (owed hash (ta_body t)).
  Proof.
    intros H Ht. destruct (reach_link utc upcoming show hash p es w H) as [K J].
    assert (E := j_asks _ _ _ _ _ _ J i (tv hash t) (nth_map_tv hash _ _ _ Ht)). cbn [tv v_backend v_owed] in E. rewrite <- E.
    unfold made_by. apply map_ext. intro a. f_equal. unfold call_at. rewrite Ht.
    assert (Hlt := k_task _ _ _ _ _ K t (nth_error_In _ _ Ht)).
    destruct (nth_error (wd_stores w) (ta_backend t)) as [s|] eqn:Es; [|apply nth_error_None in Es; lia].
    unfold LL. rewrite <- (proj1 (proj2 (store_run p (labels (ta_backend t) (wd_log w))))), <- (k_store _ _ _ _ _ K _ _ Es).
    symmetry. apply nth_error_map.
  Qed.

  Lemma asked_once es w n1 n2 a1 a2 t1 t2 : vrun world_init es = Some w ->
    nth_error (wd_asks w) n1 = Some a1 -> nth_error (wd_asks w) n2 = Some a2 ->
    nth_error (pr_tasks (wd_process w)) (ak_task a1) = Some t1 -> nth_error (pr_tasks (wd_process w)) (ak_task a2) = Some t2 ->
    ta_backend t1 = ta_backend t2 -> ak_call a1 = ak_call a2 -> n1 = n2.
  Proof.
    intros H H1 H2 Ht1 Ht2 Hb Hc. destruct (reach_link utc upcoming show hash p es w H) as [K J].
    eapply (j_once _ _ _ _ _ _ J n1 n2 a1 a2 (tv hash t1) (tv hash t2)); eauto using nth_map_tv.
  Qed.

  (** * Answers *)
  Lemma task_winv es w t e wk : vrun world_init es = Some w -> In t (pr_tasks (wd_process w)) -> ta_body t = BWorker e wk ->
    winv (xe_codec e) (xe_fns e) show wk.
  Proof.
    intros H Ht Eb. destruct (reach_link utc upcoming show hash p es w H) as [[[rs K] _ _ _ _] _].
    pose proof (i_ok _ _ _ _ _ (run_inv utc upcoming show _ _ _ K) t Ht) as Hok. unfold task_ok in Hok. rewrite Eb in Hok.
    destruct Hok as [wes [Hr _]]. eapply run_winv. exact Hr.
  Qed.

  (** The reports of one message. *)
  Lemma turn_asks es w i t n : vrun world_init es = Some w -> nth_error (pr_tasks (wd_process w)) i = Some t ->
    map (fun a => option_map cl_op (call_at w i (ak_call a))) (filter (fun a => Nat.eqb (ak_task a) i && Nat.eqb (ak_turn a) n) (wd_asks w))
    = map (fun x => Some (snd x)) (filter (fun x => Nat.eqb (fst x) n) (owed hash (ta_body t))).
  Proof.
    intros H Ht. pose proof (made_thm es w i t H Ht) as E. unfold made_by in E.
    rewrite <- filter_filter.
    transitivity (map snd (filter (fun x => Nat.eqb (fst x) n)
       (map (fun a => (ak_turn a, option_map cl_op (call_at w i (ak_call a)))) (filter (fun a => Nat.eqb (ak_task a) i) (wd_asks w))))).
    - rewrite <- map_eq_filter with (P := fun a => Nat.eqb (ak_turn a) n) by reflexivity. rewrite map_map. reflexivity.
    - rewrite E. rewrite <- map_eq_filter with (P := fun x : nat * mop => Nat.eqb (fst x) n) by reflexivity. rewrite map_map. reflexivity.
  Qed.

  Lemma crashed_empty e wes wk : worker_run (xe_codec e) (xe_fns e) show (ex_max_concurrency (xe_consts e)) worker_start wes = Some wk ->
    w_life wk = Crashed_worker -> w_flights wk = [].
  Proof.
    intros Hr El.
    assert (G : forall wes w0, (w_life w0 = Crashed_worker -> w_flights w0 = []) ->
              worker_run (xe_codec e) (xe_fns e) show (ex_max_concurrency (xe_consts e)) w0 wes = Some wk -> w_flights wk = []).
    { clear Hr wes. induction wes as [|ev wes IH]; intros w0 H0 Hr; cbn [worker_run] in Hr.
      - injection Hr as <-. auto.
      - destruct (wstep e w0 ev) as [w1|] eqn:E; [|discriminate]. apply (IH w1); [|exact Hr]. intro Hl1.
        unfold worker_step in E. destruct (w_life w0) eqn:El0; try discriminate.
        destruct ev; repeat match type of E with
          | context [match ?x with _ => _ end] => destruct x; try discriminate
          end; injection E as <-; cbn in Hl1 |- *; try reflexivity; try (rewrite El0 in Hl1; discriminate); discriminate. }
    eapply G; [|exact Hr]. discriminate.
  Qed.

  Theorem report_thm es w i t e wk n op : vrun world_init es = Some w ->
    nth_error (pr_tasks (wd_process w)) i = Some t -> ta_body t = BWorker e wk ->
    flight_of n (w_flights wk) = Some (FReporting op) ->
    exists a c, filter (fun a => Nat.eqb (ak_task a) i && Nat.eqb (ak_turn a) n) (wd_asks w) = [a]
      /\ call_at w i (ak_call a) = Some c /\ cl_op c = op
      /\ replies i n w = [Some (cl_pc c)].
  Proof.
    intros H Ht Eb Hf. pose proof (task_winv es w t e wk H (nth_error_In _ _ Ht) Eb) as Hw.
    assert (Hst : flat_map (fun o => match o with Reported k op => [(k, op)] | _ => [] end) (story n wk) = [(n, op)]).
    { destruct Hw as [W1 [W2 [_ [W4 [W5 W6]]]]]. assert (Hlt : (n < w_next wk)%nat) by (apply W2; eapply flight_in; exact Hf).
      specialize (W4 n Hlt). assert (Hl : w_life wk <> Crashed_worker \/ w_life wk = Crashed_worker) by (destruct (w_life wk); auto; left; discriminate).
      destruct (w_life wk) eqn:El.
      - rewrite Hf in W4. inversion W4; subst; reflexivity.
      - rewrite Hf in W4. inversion W4; subst; reflexivity.
      - exfalso. assert (Hok : w_flights wk = []).
        { destruct (reach_link utc upcoming show hash p es w H) as [[[rs K] _ _ _ _] _].
          pose proof (i_ok _ _ _ _ _ (run_inv utc upcoming show _ _ _ K) t (nth_error_In _ _ Ht)) as Hok. unfold task_ok in Hok. rewrite Eb in Hok.
          destruct Hok as [wes [Hr _]]. exact (crashed_empty _ _ _ Hr El). }
        rewrite Hok in Hf. discriminate. }
    rewrite <- reports_story in Hst.
    pose proof (turn_asks es w i t n H Ht) as E. rewrite Eb in E. cbn [owed] in E. rewrite Hst in E. cbn [map snd] in E.
    destruct (filter (fun a => Nat.eqb (ak_task a) i && Nat.eqb (ak_turn a) n) (wd_asks w)) as [|a [|a' l]] eqn:Ef; try discriminate.
    cbn [map] in E. injection E as E. destruct (call_at w i (ak_call a)) as [c|] eqn:Ec; [|discriminate]. injection E as E.
    exists a, c. split; [reflexivity|]. split; [exact Ec|]. split; [exact E|].
    unfold replies. rewrite Ef. cbn [map]. unfold call_at in Ec. rewrite Ht in Ec |- *.
    destruct (nth_error (wd_stores w) (ta_backend t)) as [s|]; [|discriminate]. rewrite Ec. reflexivity.
  Qed.

  Lemma report_five n1 n2 x o op : report show n1 n2 x o = Some op ->
    match op with OpComplete _ | OpDiscarded _ _ | OpCancelled _ _ | OpRetryable _ _ _ | OpSnoozed _ _ => True | _ => False end.
  Proof.
    unfold report, report_error. intro H.
    repeat match type of H with
      | context [match ?y with _ => _ end] => destruct y; try discriminate
      end; injection H as <-; exact Logic.I.
  Qed.

  Lemma flight_reporting es w t e wk n op : vrun world_init es = Some w -> In t (pr_tasks (wd_process w)) -> ta_body t = BWorker e wk ->
    flight_of n (w_flights wk) = Some (FReporting op) ->
    w_life wk = Working
    /\ match op with OpComplete _ | OpDiscarded _ _ | OpCancelled _ _ | OpRetryable _ _ _ | OpSnoozed _ _ => True | _ => False end.
  Proof.
    intros H Ht Eb Hf. pose proof (task_winv es w t e wk H Ht Eb) as [W1 [W2 [_ [W4 [W5 W6]]]]].
    assert (Hl : w_life wk = Working).
    { destruct (w_life wk) eqn:El; [reflexivity|rewrite W5 in Hf by reflexivity; discriminate|].
      exfalso. destruct (reach_link utc upcoming show hash p es w H) as [[[rs K] _ _ _ _] _].
      pose proof (i_ok _ _ _ _ _ (run_inv utc upcoming show _ _ _ K) t Ht) as Hok. unfold task_ok in Hok. rewrite Eb in Hok.
      destruct Hok as [wes [Hr _]]. rewrite (crashed_empty _ _ _ Hr El) in Hf. discriminate. }
    split; [exact Hl|]. assert (Hlt : (n < w_next wk)%nat) by (apply W2; eapply flight_in; exact Hf).
    specialize (W4 n Hlt). rewrite Hl, Hf in W4. inversion W4; subst. eapply report_five. eassumption.
  Qed.

  Theorem answer_thm es w i t e wk n op : vrun world_init es = Some w ->
    nth_error (pr_tasks (wd_process w)) i = Some t -> ta_body t = BWorker e wk ->
    flight_of n (w_flights wk) = Some (FReporting op) ->
    exists a c, filter (fun a => Nat.eqb (ak_task a) i && Nat.eqb (ak_turn a) n) (wd_asks w) = [a]
      /\ call_at w i (ak_call a) = Some c /\ cl_op c = op
      /\ forall now, match cl_pc c with
         | PcDone r => exists r' w' wk', r = RUnit r' /\ vstep now w (VAnswer i n) = Some w'
             /\ wstep e wk (WReported n r') = Some wk'
             /\ pr_tasks (wd_process w') = set_nth i (mk_task (ta_backend t) (ta_token t) (BWorker e wk')) (pr_tasks (wd_process w))
             /\ wd_stores w' = wd_stores w
         | _ => vstep now w (VAnswer i n) = None
         end.
  Proof.
    intros H Ht Eb Hf. destruct (report_thm es w i t e wk n op H Ht Eb Hf) as [a [c [E1 [E2 [E3 E4]]]]].
    destruct (flight_reporting es w t e wk n op H (nth_error_In _ _ Ht) Eb Hf) as [Hl Hop].
    exists a, c. do 3 (split; [assumption|]). intro now. cbn [world_step]. unfold world_answer. rewrite E4.
    destruct (cl_pc c) as [| | | | |r] eqn:Ep; try reflexivity.
    assert (Hfit : fits (cl_op c) r).
    { unfold call_at in E2. rewrite Ht in E2. destruct (nth_error (wd_stores w) (ta_backend t)) as [s|] eqn:Es; [|discriminate].
      rewrite (store_thm es w _ s H Es) in E2. eapply done_fits; [eapply nth_error_In; exact E2|exact Ep]. }
    rewrite E3 in Hfit.
    assert (Hr : exists r', r = RUnit r') by (destruct op; try destruct Hop; destruct r; try destruct Hfit; eexists; reflexivity).
    destruct Hr as [r' ->]. exists r'.
    assert (Hw : exists wk', wstep e wk (WReported n r') = Some wk').
    { unfold worker_step. rewrite Hl, Hf. destruct r'; eexists; reflexivity. }
    destruct Hw as [wk' Hw]. unfold on_process. cbn [app_step]. rewrite Ht. unfold worker_task_step. rewrite Eb, Hw. cbn [put_task].
    do 2 eexists. split; [reflexivity|]. split; [reflexivity|]. split; [reflexivity|]. split; reflexivity.
  Qed.

  (** * Loops *)
  Lemma replies_at i n (w : world) : replies i n w
    = map (fun a => option_map cl_pc (call_at w i (ak_call a))) (filter (fun a => Nat.eqb (ak_task a) i && Nat.eqb (ak_turn a) n) (wd_asks w)).
  Proof.
    unfold replies, call_at. apply map_ext. intro a. destruct (nth_error (pr_tasks (wd_process w)) i); [|reflexivity].
    destruct (nth_error (wd_stores w) (ta_backend t)); reflexivity.
  Qed.

  Theorem acted_thm es w i t c now w' : vrun world_init es = Some w ->
    nth_error (pr_tasks (wd_process w)) i = Some t -> vstep now w (VActed i c) = Some w' ->
    exists cs, map cl_op cs = map snd (filter (fun x => Nat.eqb (fst x) (length (firings (ta_body t)))) (owed hash (ta_body t)))
      /\ (forall x, In x cs -> exists k s, nth_error (wd_stores w) (ta_backend t) = Some s /\ nth_error (c_calls s) k = Some x)
      /\ ((exists x, In x cs /\ (cl_pc x = PcDone (RId Panic) \/ cl_pc x = PcDone (RUnit Panic)))
            /\ wd_log w' = wd_log w ++ [(now, OnProcess (ATick i (Acted c true)))]
          \/ (forall x, In x cs -> exists r, cl_pc x = PcDone r /\ r <> RId Panic /\ r <> RUnit Panic)
            /\ wd_log w' = wd_log w ++ [(now, OnProcess (ATick i (Acted c false)))]).
  Proof.
    intros H Ht Hs. cbn [world_step] in Hs. unfold world_acted in Hs. rewrite Ht, replies_at in Hs.
    set (n := length (firings (ta_body t))) in *. pose proof (turn_asks es w i t n H Ht) as E.
    set (l := filter (fun a => Nat.eqb (ak_task a) i && Nat.eqb (ak_turn a) n) (wd_asks w)) in *.
    assert (Hc : exists cs, map (fun a => call_at w i (ak_call a)) l = map Some cs).
    { clear Hs. revert E. generalize (map snd (filter (fun x => Nat.eqb (fst x) n) (owed hash (ta_body t)))) as os. intros os E.
      assert (G : forall l (xs : list (nat * mop)), map (fun a => option_map cl_op (call_at w i (ak_call a))) l = map (fun x => Some (snd x)) xs ->
        exists cs, map (fun a => call_at w i (ak_call a)) l = map Some cs).
      { clear. induction l as [|a l IH]; intros xs E; [exists []; reflexivity|]. destruct xs as [|x xs]; [discriminate|].
        cbn [map] in E. injection E as E1 E2. destruct (IH _ E2) as [cs Hcs]. destruct (call_at w i (ak_call a)) as [c|] eqn:Ec; [|discriminate].
        exists (c :: cs). cbn [map]. rewrite Ec, Hcs. reflexivity. }
      eapply G. exact E. }
    destruct Hc as [cs Hcs]. exists cs.
    assert (R : map (fun a => option_map cl_pc (call_at w i (ak_call a))) l = map (fun x => Some (cl_pc x)) cs).
    { rewrite <- (map_map (fun a => call_at w i (ak_call a)) (option_map cl_pc)), Hcs, map_map. reflexivity. }
    assert (R2 : map (fun x => Some (cl_op x)) cs = map (fun x => Some (snd x)) (filter (fun x => Nat.eqb (fst x) n) (owed hash (ta_body t)))).
    { rewrite <- E, <- (map_map (fun a => call_at w i (ak_call a)) (option_map cl_op)), Hcs, map_map. reflexivity. }
    split.
    { apply (f_equal (map (fun o => match o with Some x => x | None => OpSubscribe EmptyString end))) in R2. rewrite !map_map in R2. exact R2. }
    split.
    { intros x Hx. apply (in_map Some) in Hx. rewrite <- Hcs in Hx. apply in_map_iff in Hx. destruct Hx as [a [Hx _]].
      unfold call_at in Hx. rewrite Ht in Hx. destruct (nth_error (wd_stores w) (ta_backend t)) as [s|]; [|discriminate]. eauto. }
    rewrite R in Hs. destruct (existsb is_panic _) eqn:Ex.
    - left. split; [|exact (onp_log _ _ _ _ Hs)]. apply existsb_exists in Ex. destruct Ex as [y [Hy Hp]]. apply in_map_iff in Hy.
      destruct Hy as [x [<- Hx]]. exists x. split; [exact Hx|]. cbn in Hp. destruct (cl_pc x) as [| | | | |[[| |]|[| |]| |]]; try discriminate; auto.
    - destruct (forallb is_done _) eqn:Ed; [|discriminate]. right. split; [|exact (onp_log _ _ _ _ Hs)]. intros x Hx.
      assert (Hin : In (Some (cl_pc x)) (map (fun x => Some (cl_pc x)) cs)) by (apply (in_map (fun x => Some (cl_pc x))); exact Hx).
      assert (Hp : is_panic (Some (cl_pc x)) = false).
      { destruct (is_panic (Some (cl_pc x))) eqn:Ep; [|reflexivity]. rewrite <- Ex. symmetry. apply existsb_exists. eauto. }
      rewrite forallb_forall in Ed. specialize (Ed _ Hin). cbn in Ed. destruct (cl_pc x) as [| | | | |r]; try discriminate.
      exists r. split; [reflexivity|]. split; intros ->; discriminate.
  Qed.

  (** * Events *)
  Lemma ons_stores now b l (w w' : world) : ons now b l w = Some w' ->
    wd_process w' = wd_process w /\ exists s, nth_error (wd_stores w) b = Some s /\ wd_stores w' = set_nth b (fst (conc_step p s l)) (wd_stores w).
  Proof. unfold on_store. destruct (nth_error _ _) as [s|]; [|discriminate]. intro H. injection H as <-. eauto. Qed.

  Lemma connect_labels now : forall l (w w' : world), connect_all p now l w = Some w' ->
    exists added, wd_log w' = wd_log w ++ added /\ process_events added = []
      /\ forall b, labels b added = flat_map (fun t => match ta_body t with
           | BWorker e _ => if Nat.eqb (ta_backend t) b then [LSubscribe (ex_name (xe_consts e))] else [] | _ => [] end) l.
  Proof.
    induction l as [|t l IH]; intros w w' H; cbn [connect_all] in H.
    - injection H as <-. exists []. rewrite app_nil_r. auto.
    - destruct (connect p now t w) as [w1|] eqn:E; [|discriminate]. destruct (IH _ _ H) as [ad [A1 [A2 A3]]].
      unfold connect in E. destruct (ta_body t) as [e wk| |] eqn:Eb.
      + destruct (nth_error (wd_stores w) (ta_backend t)); [|discriminate].
        destruct (ons now (ta_backend t) (LSubscribe (ex_name (xe_consts e))) w) as [w2|] eqn:E2; [|discriminate].
        injection E as <-. cbn [wd_log] in A1. rewrite (ons_log _ _ _ _ _ E2), <- app_assoc in A1. eexists. split; [exact A1|].
        split; [exact A2|]. intro b. cbn [app labels flat_map snd]. change (flat_map _ ad) with (labels b ad).
        rewrite A3, Eb. reflexivity.
      + injection E as <-. exists ad. split; [exact A1|]. split; [exact A2|]. intro b. rewrite A3. cbn [flat_map]. rewrite Eb. reflexivity.
      + injection E as <-. exists ad. split; [exact A1|]. split; [exact A2|]. intro b. rewrite A3. cbn [flat_map]. rewrite Eb. reflexivity.
  Qed.

  Theorem events_thm now w ev w' : vstep now w ev = Some w' ->
    exists added, wd_log w' = wd_log w ++ added /\
    match ev with
    | VStore => added = [] /\ wd_stores w' = wd_stores w ++ [c_init] /\ wd_process w' = wd_process w
    | VApp a => process_events added = [(now, a)]
        /\ forall b, labels b added
           = flat_map (fun t => match ta_body t with
               | BWorker e _ => if Nat.eqb (ta_backend t) b then [LSubscribe (ex_name (xe_consts e))] else [] | _ => [] end)
             (skipn (length (pr_tasks (wd_process w))) (pr_tasks (wd_process w')))
    | VCall b o => added = [(now, OnStore b (LCall o))]
    | VRun b i => added = [(now, OnStore b (LRun i now))]
    | VPoll i => exists t k s, nth_error (pr_tasks (wd_process w)) i = Some t /\ nth_error (wd_streams w) i = Some (Some k)
        /\ nth_error (wd_stores w) (ta_backend t) = Some s
        /\ added = (now, OnStore (ta_backend t) (LStream k now))
             :: match nth_error (c_streams (fst (conc_step p s (LStream k now)))) k with
                | Some (SYield (Ok j)) => [(now, OnProcess (AWorker i (WTake (MJob j))))]
                | Some (SYield (Err err)) => [(now, OnProcess (AWorker i (WTake (MError err))))]
                | Some (SYield Panic) | Some SDead => [(now, OnProcess (AWorker i WPanic))]
                | _ => []
                end
    | VRecv i => exists t k, nth_error (pr_tasks (wd_process w)) i = Some t /\ nth_error (wd_streams w) i = Some (Some k)
        /\ added = [(now, OnStore (ta_backend t) (LRecv k))]
    | VClose i => added = [(now, OnProcess (AWorker i WClose))]
    | VStart i n => added = [(now, OnProcess (AWorker i (WStart n)))]
    | VEnd i n n1 n2 o => process_events added = [(now, AWorker i (WEnd n n1 n2 o))]
    | VAnswer i n => exists r, added = [(now, OnProcess (AWorker i (WReported n r)))]
    | VFinish i => added = [(now, OnProcess (AWorker i WFinish))]
    | VCompute i c0 c1 => added = [(now, OnProcess (ATick i (Compute c0 c1)))]
    | VWake i c => process_events added = [(now, ATick i (Wake c))]
    | VLeave i => added = [(now, OnProcess (ATick i Cancel))]
    | VActed i c => exists panicked, added = [(now, OnProcess (ATick i (Acted c panicked)))]
    | VRested i c => added = [(now, OnProcess (ATick i (Rested c)))]
    end.
  Proof.
    intro H.
    assert (Hask : forall i n b o (w w' : world), ask_for p now i n b o w = Some w' -> wd_log w' = wd_log w ++ [(now, OnStore b (LCall o))]).
    { intros i n b o w0 w1 E. unfold ask_for in E. destruct (nth_error _ _); [|discriminate].
      destruct (ons now b (LCall o) w0) as [w2|] eqn:E2; [|discriminate]. injection E as <-. exact (ons_log _ _ _ _ _ E2). }
    assert (Hall : forall i n b l (w w' : world), ask_all p now i n b l w = Some w' -> exists ad, wd_log w' = wd_log w ++ ad /\ process_events ad = []).
    { intros i n b l. induction l as [|o l IH]; intros w0 w1 E; cbn [ask_all] in E.
      - injection E as <-. exists []. now rewrite app_nil_r.
      - destruct (ask_for p now i n b o w0) as [w2|] eqn:E2; [|discriminate]. destruct (IH _ _ E) as [ad [-> A]].
        rewrite (Hask _ _ _ _ _ _ E2), <- app_assoc. eexists. split; [reflexivity|exact A]. }
    destruct ev as [|ev|b o|b i|i|i|i|i n|i n n1 n2 o|i n|i|i c0 c1|i c|i|i c|i c]; cbn [world_step] in H;
      try (eexists; split; [eapply onp_log; exact H|]; reflexivity); try (eexists; split; [eapply ons_log; exact H|]; reflexivity).
    - injection H as <-. exists []. cbn. rewrite app_nil_r. auto.
    - unfold world_app in H.
      assert (G : forall ev, 
        match onp now ev w with
        | Some w' => connect_all p now (skipn (length (pr_tasks (wd_process w))) (pr_tasks (wd_process w'))) w'
        | None => None end = Some w' ->
        exists added, wd_log w' = wd_log w ++ added /\ process_events added = [(now, ev)]
          /\ forall b, labels b added
           = flat_map (fun t => match ta_body t with
               | BWorker e _ => if Nat.eqb (ta_backend t) b then [LSubscribe (ex_name (xe_consts e))] else [] | _ => [] end)
             (skipn (length (pr_tasks (wd_process w))) (pr_tasks (wd_process w')))).
      { intros e K. destruct (onp now e w) as [w1|] eqn:E; [|discriminate]. destruct (connect_labels _ _ _ _ K) as [ad [A1 [A2 A3]]].
        rewrite (onp_log _ _ _ _ E), <- app_assoc in A1. eexists. split; [exact A1|]. cbn [app process_events flat_map snd fst labels].
        split; [change (flat_map _ ad) with (process_events ad); rewrite A2; reflexivity|]. intro b.
        change (flat_map _ ad) with (labels b ad). rewrite A3.
        assert (Hp : wd_process w' = wd_process w1); [|rewrite Hp; reflexivity].
        revert K. generalize (skipn (length (pr_tasks (wd_process w))) (pr_tasks (wd_process w1))) as l. intro l. clear. revert w1.
        induction l as [|t l IH]; intros w1 K; cbn [connect_all] in K; [congruence|].
        destruct (connect p now t w1) as [w2|] eqn:E; [|discriminate]. rewrite (IH _ K). unfold connect in E.
        destruct (ta_body t); [|injection E as <-; reflexivity..].
        destruct (nth_error _ _); [|discriminate]. destruct (ons now _ _ w1) as [w3|] eqn:E2; [|discriminate].
        injection E as <-. exact (proj1 (ons_stores _ _ _ _ _ E2)). }
      destruct ev as [b|h|h e|h e sc data|h e sc data z|h sc cfg|h|h|h|h|i e|i e]; try discriminate; try (apply G; exact H).
      destruct (Nat.ltb b _); [|discriminate]. eexists. split; [eapply onp_log; exact H|]. split; [reflexivity|]. intro b'.
      unfold on_process in H. cbn in H. injection H as <-. cbn [wd_process pr_tasks app_new labels flat_map snd app].
      rewrite skipn_all. reflexivity.
    - unfold world_poll in H. destruct (nth_error (pr_tasks (wd_process w)) i) as [t|]; [|discriminate].
      destruct (nth_error (wd_streams w) i) as [[k|]|]; try discriminate. destruct (ta_body t); try discriminate.
      destruct (polls e w0); [|discriminate]. destruct (ons now (ta_backend t) (LStream k now) w) as [w1|] eqn:E; [|discriminate].
      destruct (ons_stores _ _ _ _ _ E) as [_ [s [Es Es']]].
      assert (Hst : stream_at (ta_backend t) k w1 = nth_error (c_streams (fst (conc_step p s (LStream k now)))) k).
      { unfold stream_at. rewrite Es'. erewrite nth_set_same by exact Es. reflexivity. }
      rewrite Hst in H. pose proof (ons_log _ _ _ _ _ E) as El.
      assert (Q : forall ad, wd_log w' = wd_log w1 ++ ad -> wd_log w' = wd_log w ++ (now, OnStore (ta_backend t) (LStream k now)) :: ad).
      { intros ad ->. rewrite El, <- app_assoc. reflexivity. }
      exists ((now, OnStore (ta_backend t) (LStream k now)) ::
         match nth_error (c_streams (fst (conc_step p s (LStream k now)))) k with
         | Some (SYield (Ok j)) => [(now, OnProcess (AWorker i (WTake (MJob j))))]
         | Some (SYield (Err err)) => [(now, OnProcess (AWorker i (WTake (MError err))))]
         | Some (SYield Panic) | Some SDead => [(now, OnProcess (AWorker i WPanic))]
         | _ => []
         end).
      split; [|exists t, k, s; auto]. apply Q.
      destruct (nth_error (c_streams (fst (conc_step p s (LStream k now)))) k) as [[| | | | |[j|err|]|]|];
        try (injection H as <-; symmetry; apply app_nil_r); exact (onp_log _ _ _ _ H).
    - unfold world_recv in H. destruct (nth_error (pr_tasks (wd_process w)) i) as [t|]; [|discriminate].
      destruct (nth_error (wd_streams w) i) as [[k|]|]; try discriminate. destruct (ta_body t); try discriminate.
      destruct (polls e w0); [|discriminate]. eexists. split; [eapply ons_log; exact H|]. exists t, k. auto.
    - unfold world_end in H. destruct (onp now (AWorker i (WEnd n n1 n2 o)) w) as [w1|] eqn:E; [|discriminate].
      pose proof (onp_log _ _ _ _ E) as El. destruct (nth_error (pr_tasks (wd_process w1)) i) as [t|]; [|discriminate].
      destruct (ta_body t); try (injection H as <-; eexists; split; [exact El|reflexivity]).
      destruct (flight_of n (w_flights w0)) as [[m|x|op]|]; try (injection H as <-; eexists; split; [exact El|reflexivity]).
      rewrite (Hask _ _ _ _ _ _ H), El, <- app_assoc. eexists. split; reflexivity.
    - unfold world_answer in H. destruct (replies i n w) as [|[[| | | | |[ | r| |]]|] [|]]; try discriminate.
      eexists. split; [eapply onp_log; exact H|]. eauto.
    - unfold world_wake in H. destruct (onp now (ATick i (Wake c)) w) as [w1|] eqn:E; [|discriminate].
      pose proof (onp_log _ _ _ _ E) as El. destruct (nth_error (pr_tasks (wd_process w1)) i) as [t|]; [|discriminate].
      destruct (firings (ta_body t)) as [|[c' next] rest]; [injection H as <-; eexists; split; [exact El|reflexivity]|].
      destruct (Hall _ _ _ _ _ _ H) as [ad [-> A]]. rewrite El, <- app_assoc. eexists. split; [reflexivity|].
      cbn [app process_events flat_map snd fst]. change (flat_map _ ad) with (process_events ad). now rewrite A.
    - unfold world_acted in H. destruct (nth_error (pr_tasks (wd_process w)) i) as [t|]; [|discriminate].
      destruct (existsb _ _); [eexists; split; [eapply onp_log; exact H|]; eauto|]. destruct (forallb _ _); [|discriminate].
      eexists; split; [eapply onp_log; exact H|]; eauto.
  Qed.

  (** Every stream belongs to a worker. *)
  Theorem streams_thm es w b s k : vrun world_init es = Some w -> nth_error (wd_stores w) b = Some s -> (k < length (c_streams s))%nat ->
    exists i t e wk, nth_error (pr_tasks (wd_process w)) i = Some t /\ ta_backend t = b /\ ta_body t = BWorker e wk
      /\ nth_error (wd_streams w) i = Some (Some k).
  Proof.
    intros H Hs Hk. destruct (reach_link utc upcoming show hash p es w H) as [K J].
    pose proof (k_store _ _ _ _ _ K _ _ Hs) as Er. destruct (store_run p (LL w b)) as [_ [_ [N1 N2]]]. cbn zeta in N1, N2. unfold LL in N1, N2.
    rewrite <- Er in N1, N2. rewrite N2, <- (map_length sub_executor), N1 in Hk.
    destruct (nth_error (names_of (labels b (wd_log w))) k) as [name|] eqn:En; [|apply nth_error_None in En; lia].
    destruct (j_all _ _ _ _ _ _ J b k name En) as [i [v [js [H1 [H2 [H3 H4]]]]]]. rewrite nth_error_map in H1.
    destruct (nth_error (pr_tasks (wd_process w)) i) as [t|] eqn:Et; [|discriminate]. injection H1 as <-. cbn [tv v_worker v_backend] in H2, H4.
    destruct (ta_body t) as [e wk| |] eqn:Eb; try discriminate. exists i, t, e, wk. auto.
  Qed.

  (** When a worker's stream can be polled. *)
  Theorem poll_thm es w i t e wk now : vrun world_init es = Some w -> nth_error (pr_tasks (wd_process w)) i = Some t -> ta_body t = BWorker e wk ->
    (exists w', vstep now w (VPoll i) = Some w')
    <-> w_life wk = Working /\ w_transit wk = None /\ w_open wk = true /\ w_cancelled wk = false
        /\ match ex_max_concurrency (xe_consts e) with
           | Some l => l = 0 \/ Z.of_nat (length (w_flights wk)) < l
           | None => True
           end.
  Proof.
    intros H Ht Eb. destruct (stream_thm es w i t e wk H Ht Eb) as [k [s [sb [E1 [E2 [E3 [E4 [E5 _]]]]]]]].
    assert (Hm : may_poll (ex_max_concurrency (xe_consts e)) wk = true <-> w_open wk = true /\ w_cancelled wk = false
        /\ match ex_max_concurrency (xe_consts e) with
           | Some l => l = 0 \/ Z.of_nat (length (w_flights wk)) < l
           | None => True
           end).
    { unfold may_poll. destruct (w_open wk), (w_cancelled wk); cbn [andb negb]; try (split; [discriminate|intros [? [? _]]; discriminate]).
      unfold below_limit. destruct (ex_max_concurrency (xe_consts e)) as [l|]; [|tauto].
      rewrite Bool.orb_true_iff, Z.eqb_eq, Z.ltb_lt. tauto. }
    rewrite <- Hm. cbn [world_step]. unfold world_poll. rewrite Ht, E1, Eb. unfold polls. split.
    - intros [w' K]. destruct (w_life wk); try discriminate. destruct (w_transit wk); [discriminate|].
      destruct (may_poll _ _); [auto|discriminate].
    - intros [El [Htr Hp]]. rewrite El, Htr, Hp. unfold on_store. rewrite E2. unfold stream_at. cbn [wd_stores].
      rewrite (nth_set_same _ _ _ _ E2).
      assert (Hw : forall ev s1 st1 a1 l1, (exists m, ev = WTake m) \/ ev = WPanic ->
        exists w', onp now (AWorker i ev) (mk_world (wd_process w) s1 st1 a1 l1) = Some w').
      { intros ev s1 st1 a1 l1 Hev. unfold on_process. cbn [app_step wd_process]. rewrite Ht. unfold worker_task_step. rewrite Eb.
        unfold worker_step. rewrite El. destruct Hev as [[m ->]| ->]; rewrite Htr, Hp; eexists; reflexivity. }
      destruct (nth_error (c_streams (fst (conc_step p s (LStream k now)))) k) as [[| | | | |[j|err|]|]|]; eauto.
  Qed.
End Thms.
