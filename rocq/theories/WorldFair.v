(** Lemmas about what must happen in a program on in-memory backends. *)
From Coq Require Import Lia Permutation.
From Verif Require Import Base Chrono Types Query Memory MemSpec MemProofs MemHist2 MemNotify MemConc MemConcSpec MemConcProofs MemConcThms MemWake
  Codec Builder Runner RunnerSpec WorkerProofs Ticker Pruner ApiSpec ApiProofs PropsApi App AppSpec AppProofs AppEnd PropsApp World WorldSpec WorldProofs WorldInv WorldThms WorldLive FairSpec.

(** What comes down whenever it is not zero reaches zero. *)
Lemma comes_down (mu : nat -> nat) : (forall n, mu n <> 0%nat -> exists m, (n <= m)%nat /\ (mu m < mu n)%nat) ->
  forall n, exists m, (n <= m)%nat /\ mu m = 0%nat.
Proof.
  intros H n. remember (mu n) as k eqn:E. revert n E. induction k as [k IH] using lt_wf_ind. intros n E.
  destruct (Nat.eq_dec k 0) as [->|Hk]; [exists n; auto|].
  destruct (H n) as [m [L D]]; [congruence|]. destruct (IH (mu m) ltac:(lia) m eq_refl) as [m' [L' D']]. exists m'. split; [lia|exact D'].
Qed.

(** * Workers *)

(** The event is about flight [n]. *)
Definition about (n : nat) (e : worker_event) : Prop := match e with WStart k | WEnd k _ _ _ | WReported k _ => k = n | _ => False end.

Lemma flight_put n q ph : forall l, flight_of n l = Some ph -> flight_of n (set_flight n (Some q) l) = Some q.
Proof.
  induction l as [|[k p] l IH]; cbn [flight_of set_flight]; [discriminate|]. destruct (Nat.eqb k n) eqn:E; intro H; cbn [flight_of]; rewrite E; [reflexivity|auto].
Qed.

Lemma flight_moves D M (c : codec D M) fns show limit w e w' n : worker_step c fns show limit w e = Some w' ->
  winv c fns show w -> (n < w_next w)%nat ->
  (n < w_next w')%nat /\
  ((flight_of n (w_flights w') = flight_of n (w_flights w) /\ ~ about n e) \/ flight_of n (w_flights w') = None
   \/ (exists m x, flight_of n (w_flights w) = Some (FNew m) /\ flight_of n (w_flights w') = Some (FExecuting x))
   \/ (exists x op, flight_of n (w_flights w) = Some (FExecuting x) /\ flight_of n (w_flights w') = Some (FReporting op))).
Proof.
  intros H W Hn. pose proof W as [W1 [W2 _]]. unfold worker_step in H. destruct (w_life w) eqn:El; try discriminate.
  assert (Hfr : ~ In (w_next w) (map fst (w_flights w))) by (intro Hi; apply W2 in Hi; lia).
  assert (Hpush : forall m, (n < w_next (push_flight m w))%nat /\ flight_of n (w_flights (push_flight m w)) = flight_of n (w_flights w)).
  { intro m. unfold push_flight. cbn [w_next w_flights]. split; [lia|]. rewrite flight_of_app by exact Hfr.
    destruct (Nat.eqb_spec (w_next w) n); [lia|reflexivity]. }
  assert (Hother : forall k ph obs, k <> n -> flight_of n (w_flights (progress k ph obs w)) = flight_of n (w_flights w)).
  { intros k ph obs Hk. cbn [progress w_flights]. apply flight_set_other. exact Hk. }
  assert (Hself : forall ph obs q, flight_of n (w_flights w) = Some q -> flight_of n (w_flights (progress n ph obs w)) = ph).
  { intros ph obs q Hq. cbn [progress w_flights]. rewrite flight_of_set by (auto; eapply WorkerProofs.flight_in; exact Hq). rewrite Nat.eqb_refl. reflexivity. }
  destruct e as [m|m| | | | |k|k now1 now2 o|k r|].
  - destruct (w_transit w); [discriminate|]. destruct (may_poll limit w); [|discriminate]. injection H as <-.
    destruct (Hpush m) as [A B]. split; [exact A|left; split; [exact B|intros []]].
  - destruct (w_transit w); [discriminate|]. destruct (may_poll limit w); [|discriminate]. injection H as <-. cbn. split; [exact Hn|left; split; [reflexivity|intros []]].
  - destruct (w_transit w) as [m|]; [|discriminate]. destruct (may_poll limit w); [|discriminate]. injection H as <-.
    destruct (Hpush m) as [A B]. split; [exact A|left; split; [exact B|intros []]].
  - destruct (w_transit w); [discriminate|]. destruct (may_poll limit w); [|discriminate]. injection H as <-. cbn. auto.
  - injection H as <-. cbn. split; [exact Hn|left; split; [reflexivity|intros []]].
  - destruct (_ && _); [|discriminate]. injection H as <-. cbn. split; [exact Hn|left; split; [reflexivity|intros []]].
  - destruct (flight_of k (w_flights w)) as [[[j|er]|x|op]|] eqn:Ef; try discriminate.
    + destruct (begin_job c fns j) as [x| |]; injection H as <-.
      2:{ split; [exact Hn|]. destruct (Nat.eq_dec k n) as [->|Hk]; [right; left; eapply Hself; exact Ef|left; split; [apply Hother, Hk|exact Hk]]. }
      * split; [exact Hn|]. destruct (Nat.eq_dec k n) as [->|Hk]; [right; right; left; exists (MJob j), x; split; [exact Ef|eapply Hself; exact Ef]|left; split; [apply Hother, Hk|exact Hk]].
      * cbn. auto.
    + injection H as <-. split; [exact Hn|]. destruct (Nat.eq_dec k n) as [->|Hk]; [right; left; eapply Hself; exact Ef|left; split; [apply Hother, Hk|exact Hk]].
  - destruct (flight_of k (w_flights w)) as [[m|x|op]|] eqn:Ef; try discriminate.
    assert (H' : Some w' = match report show now1 now2 x o with
       | Some op => Some (progress k (Some (FReporting op)) [Reported k op] (progress k (Some (FExecuting x)) [Outcome k o] w))
       | None => Some (crash (progress k (Some (FExecuting x)) [Outcome k o] w)) end).
    { rewrite <- H. destruct o; try reflexivity. destruct (x_timeout x); [reflexivity|discriminate]. }
    clear H. destruct (report show now1 now2 x o) as [op|]; injection H' as ->; [|cbn; auto].
    split; [exact Hn|]. destruct (Nat.eq_dec k n) as [->|Hk].
    + right. right. right. exists x, op. split; [exact Ef|]. cbn [progress w_flights].
      eapply flight_put, flight_put, Ef.
    + left. split; [|exact Hk]. cbn [progress w_flights]. rewrite !flight_set_other by exact Hk. reflexivity.
  - destruct (flight_of k (w_flights w)) as [[m|x|op]|] eqn:Ef; try discriminate.
    assert (Hc : w' = crash w \/ w' = progress k None [] w) by (destruct r; injection H as <-; auto).
    destruct Hc as [-> | ->]; [cbn; auto|]. split; [exact Hn|].
    destruct (Nat.eq_dec k n) as [->|Hk]; [right; left; eapply Hself; exact Ef|left; split; [apply Hother, Hk|exact Hk]].
  - destruct (w_open w); [discriminate|]. destruct (w_flights w) eqn:Ef; [|discriminate]. injection H as <-. cbn. auto.
Qed.

Lemma load_put n ph ph' : forall l, flight_of n l = Some ph ->
  (match ph' with Some q => weight (n, q) | None => 0 end < weight (n, ph))%nat ->
  (list_sum (map weight (set_flight n ph' l)) < list_sum (map weight l))%nat.
Proof.
  induction l as [|[k q] l IH]; cbn [flight_of set_flight]; [discriminate|]. destruct (Nat.eqb k n) eqn:E; intros Hf Hw.
  - injection Hf as ->. apply Nat.eqb_eq in E. subst k. destruct ph'; cbn [map list_sum]; change (list_sum (?a :: ?b)) with (a + list_sum b)%nat; lia.
  - cbn [map]. change (list_sum (?a :: ?b)) with (a + list_sum b)%nat. specialize (IH Hf Hw). lia.
Qed.

(** How many steps a worker that has been told to stop can still take. *)
Definition fuel (w : worker) : nat :=
  match w_life w with Working => S (load w + if w_open w then 1 else 0) | _ => 0 end.

Lemma fuel_step D M (c : codec D M) fns show limit w e w' : worker_step c fns show limit w e = Some w' -> w_cancelled w = true ->
  w_cancelled w' = true /\ (e = WCancel -> fuel w' = fuel w) /\ (e <> WCancel -> (fuel w' < fuel w)%nat).
Proof.
  intros H Hc. unfold worker_step in H. destruct (w_life w) eqn:El; try discriminate.
  assert (Hp : may_poll limit w = false) by (unfold may_poll; rewrite Hc, Bool.andb_false_r; reflexivity).
  assert (F : fuel w = S (load w + if w_open w then 1 else 0)) by (unfold fuel; rewrite El; reflexivity).
  assert (Hcr : forall w0, fuel (crash w0) = 0%nat) by reflexivity.
  assert (Hpr : forall n ph q obs, flight_of n (w_flights w) = Some q -> (match ph with Some r => weight (n, r) | None => 0 end < weight (n, q))%nat ->
            (fuel (progress n ph obs w) < fuel w)%nat).
  { intros n ph q obs Hq Hw. rewrite F. unfold fuel. cbn [progress w_life w_open]. rewrite El.
    pose proof (load_put n q ph (w_flights w) Hq Hw) as K. unfold load. cbn [progress w_flights]. lia. }
  destruct e as [m|m| | | | |k|k now1 now2 o|k r|].
  - destruct (w_transit w); [discriminate|]. rewrite Hp in H. discriminate.
  - destruct (w_transit w); [discriminate|]. rewrite Hp in H. discriminate.
  - destruct (w_transit w); [|discriminate]. rewrite Hp in H. discriminate.
  - destruct (w_transit w); [discriminate|]. rewrite Hp in H. discriminate.
  - injection H as <-. split; [reflexivity|]. split; [|congruence]. intros _. rewrite F. unfold fuel. cbn [w_life w_open]. reflexivity.
  - destruct (w_open w) eqn:Eo; [|discriminate]. cbn [andb] in H. destruct (_ && _); [|discriminate]. injection H as <-.
    split; [exact Hc|]. split; [discriminate|]. intros _. rewrite F. unfold fuel, load. cbn [w_life w_open w_flights]. lia.
  - destruct (flight_of k (w_flights w)) as [[[j|er]|x|op]|] eqn:Ef; try discriminate.
    + destruct (begin_job c fns j) as [x| |]; injection H as <-; (split; [exact Hc|]; split; [discriminate|]); intros _.
      * eapply Hpr; [exact Ef|cbn; lia].
      * eapply Hpr; [exact Ef|cbn; lia].
      * rewrite Hcr, F. lia.
    + injection H as <-. split; [exact Hc|]. split; [discriminate|]. intros _. eapply Hpr; [exact Ef|cbn; lia].
  - destruct (flight_of k (w_flights w)) as [[m|x|op]|] eqn:Ef; try discriminate.
    assert (H' : Some w' = match report show now1 now2 x o with
       | Some op => Some (progress k (Some (FReporting op)) [Reported k op] (progress k (Some (FExecuting x)) [Outcome k o] w))
       | None => Some (crash (progress k (Some (FExecuting x)) [Outcome k o] w)) end).
    { rewrite <- H. destruct o; try reflexivity. destruct (x_timeout x); [reflexivity|discriminate]. }
    clear H. destruct (report show now1 now2 x o) as [op|]; injection H' as ->; (split; [exact Hc|]; split; [discriminate|]); intros _.
    + rewrite F. unfold fuel. cbn [progress w_life w_open]. rewrite El.
      pose proof (load_put k _ (Some (FReporting op)) (set_flight k (Some (FExecuting x)) (w_flights w)) (flight_put k (FExecuting x) _ _ Ef) ltac:(cbn; lia)) as K.
      assert (K2 : list_sum (map weight (set_flight k (Some (FExecuting x)) (w_flights w))) = list_sum (map weight (w_flights w))).
      { clear -Ef. induction (w_flights w) as [|[j q] l IH]; [reflexivity|]. cbn [flight_of set_flight] in *. destruct (Nat.eqb j k) eqn:E.
        - injection Ef as ->. reflexivity.
        - cbn [map list_sum fold_right] in *. unfold list_sum in *. cbn. rewrite IH by exact Ef. reflexivity. }
      unfold load. cbn [progress w_flights]. lia.
    + rewrite Hcr, F. lia.
  - destruct (flight_of k (w_flights w)) as [[m|x|op]|] eqn:Ef; try discriminate.
    assert (Hx : w' = crash w \/ w' = progress k None [] w) by (destruct r; injection H as <-; auto).
    destruct Hx as [-> | ->]; (split; [exact Hc|]; split; [discriminate|]); intros _; [rewrite Hcr, F; lia|eapply Hpr; [exact Ef|cbn; lia]].
  - destruct (w_open w) eqn:Eo; [discriminate|]. destruct (w_flights w) eqn:Ef; [|discriminate]. injection H as <-.
    split; [exact Hc|]. split; [discriminate|]. intros _. rewrite F. cbn. lia.
Qed.

(** * Stores *)

(** Calls do not go back. *)
Definition call_ok (c : call) : Prop := (steps_left c = 4 \/ steps_left c = 0 \/ is_enq (cl_op c) = true)%nat.
Definition later_call (c c' : call) : Prop := cl_op c' = cl_op c /\ (steps_left c' <= steps_left c)%nat /\ (steps_left c = 0%nat -> c' = c) /\ call_ok c'.
Lemma later_refl c : call_ok c -> later_call c c. Proof. unfold later_call. auto. Qed.
Lemma later_trans c1 c2 c3 : later_call c1 c2 -> later_call c2 c3 -> later_call c1 c3.
Proof.
  intros [A1 [A2 [A3 A4]]] [B1 [B2 [B3 B4]]]. split; [congruence|]. split; [lia|]. split; [|exact B4].
  intro E. rewrite (A3 E) in *. apply B3, E.
Qed.
Lemma zero_done c : steps_left c = 0%nat <-> exists r, cl_pc c = PcDone r.
Proof. unfold steps_left. destruct (cl_pc c); split; intro H; try discriminate; try (destruct H; discriminate); eauto. Qed.

Lemma conc_later p s l k c : nth_error (c_calls s) k = Some c -> call_ok c ->
  exists c', nth_error (c_calls (fst (conc_step p s l))) k = Some c' /\ later_call c c'
    /\ ((exists now, l = LRun k now) -> (steps_left c' <= pred (steps_left c))%nat).
Proof.
  intros Hc Ho.
  assert (Hsame : (forall now, l <> LRun k now) -> (exists l', c_calls (fst (conc_step p s l)) = c_calls s ++ l') \/ (exists j x, j <> k /\ c_calls (fst (conc_step p s l)) = set_nth j x (c_calls s)) ->
            exists c', nth_error (c_calls (fst (conc_step p s l))) k = Some c' /\ later_call c c' /\ ((exists now, l = LRun k now) -> (steps_left c' <= pred (steps_left c))%nat)).
  { intros Hn [[l' E]|[j [x [Hj E]]]]; exists c; rewrite E; (split; [|split; [apply later_refl, Ho|intros [now El]; destruct (Hn now El)]]).
    - rewrite nth_error_app1; [exact Hc|]. apply nth_error_Some. congruence.
    - rewrite nth_set_nth_other by congruence. exact Hc. }
  destruct l as [o|i now|ex|i now|i].
  - apply Hsame; [discriminate|]. left. destruct o; cbn; eauto; exists []; rewrite app_nil_r; reflexivity.
  - destruct (Nat.eq_dec i k) as [->|Hne].
    + cbn [conc_step]. rewrite Hc. destruct (call_step p k now (c_mem s) c) as [[m' c'] ev] eqn:E. cbn [fst c_calls].
      exists c'. split; [exact (nth_set_same _ _ _ _ Hc)|]. destruct (call_step_left _ _ _ _ _ _ _ _ Ho E) as [A [B C]].
      split; [|intros _; exact B]. split; [exact C|]. split; [lia|]. split; [|exact A].
      intro Ez. apply zero_done in Ez. destruct Ez as [r Er].
      pose proof (done_stays p s (LRun k now) k c r Hc Er) as K. cbn [conc_step] in K. rewrite Hc, E in K. cbn [fst c_calls] in K.
      pose proof (nth_set_same k c' _ _ Hc) as K'. congruence.
    + apply Hsame; [congruence|]. cbn [conc_step]. destruct (nth_error (c_calls s) i) as [x|]; [|left; exists []; cbn; rewrite app_nil_r; reflexivity].
      destruct (call_step p i now (c_mem s) x) as [[m' x'] ev]. right. exists i, x'. auto.
  - apply Hsame; [discriminate|]. left. exists []. rewrite app_nil_r. cbn [conc_step]. destruct (mem_subscribe _ _). reflexivity.
  - apply Hsame; [discriminate|]. left. exists []. rewrite app_nil_r. cbn [conc_step].
    repeat match goal with |- context [match ?x with _ => _ end] => destruct x end; reflexivity.
  - apply Hsame; [discriminate|]. left. exists []. rewrite app_nil_r. cbn [conc_step].
    repeat match goal with |- context [match ?x with _ => _ end] => destruct x end; reflexivity.
Qed.

Section Fair.
  Context {Schedule Zone : Type}.
  Variable utc : Zone.
  Variable upcoming : Schedule -> Zone -> time -> option time.
  Variable show : Z -> string.
  Variable hash : forall e : executor, xe_data e -> Z.
  Variable p : profile.
  Notation world := (world Schedule Zone).
  Notation tsk := (task Schedule Zone).
  Notation vev := (world_event Schedule Zone).
  Notation wstep e := (worker_step (xe_codec e) (xe_fns e) show (ex_max_concurrency (xe_consts e))).
  Notation onp := (on_process utc upcoming show).
  Notation ons := (on_store (Schedule := Schedule) (Zone := Zone) p).
  Notation vstep := (world_step utc upcoming show hash p).
  Notation vrun := (world_run utc upcoming show hash p).

  (** * One step *)

  (** What the event is for task [i]. *)
  Definition worker_does (i : nat) (ev : vev) (e : worker_event) : Prop :=
    match ev, e with
    | VPoll k, (WTake _ | WPanic) => k = i
    | VClose k, WClose => k = i
    | VStart k n, WStart n' => k = i /\ n' = n
    | VEnd k n now1 now2 o, WEnd n' now1' now2' o' => k = i /\ n' = n /\ now1' = now1 /\ now2' = now2 /\ o' = o
    | VAnswer k n, WReported n' _ => k = i /\ n' = n
    | VFinish k, WFinish => k = i
    | _, _ => False
    end.
  Definition loop_does (i : nat) (ev : vev) (e : tick_event) : Prop :=
    match ev, e with
    | VCompute k _ _, Compute _ _ | VWake k _, Wake _ | VLeave k, Cancel | VActed k _, Acted _ _ | VRested k _, Rested _ => k = i
    | _, _ => False
    end.
  (** What a step makes of task [i]. *)
  Definition becomes (i : nat) (w : world) (ev : vev) (t t' : tsk) : Prop :=
    (~ step_of i ev /\ (t' = t \/ t' = told show (ta_token t) t))
    \/ (exists e, worker_task_step show t e = Some t' /\ worker_does i ev e)
    \/ (exists e, tick_task_step utc upcoming (token_cancelled t (wd_process w)) t e = Some t' /\ loop_does i ev e).

  Lemma onp_becomes now a (w w' : world) i t : onp now a w = Some w' -> nth_error (pr_tasks (wd_process w)) i = Some t ->
    exists t', nth_error (pr_tasks (wd_process w')) i = Some t'
      /\ (((t' = t \/ t' = told show (ta_token t) t) /\ (forall e, a <> AWorker i e) /\ (forall e, a <> ATick i e))
          \/ (exists e, a = AWorker i e /\ worker_task_step show t e = Some t')
          \/ (exists e, a = ATick i e /\ tick_task_step utc upcoming (token_cancelled t (wd_process w)) t e = Some t')).
  Proof.
    unfold on_process. destruct (app_step utc upcoming show now (wd_process w) a) as [[s r]|] eqn:E; [|discriminate]. intro H. injection H as <-. intro Ht.
    cbn [wd_process]. destruct a as [b|h|h e|h e sc d|h e sc d z|h sc cfg|h|h|h|h|k e|k e].
    11: { cbn [app_step] in E. destruct (nth_error (pr_tasks (wd_process w)) k) as [tk|] eqn:Ek; [|discriminate].
      destruct (worker_task_step show tk e) as [tk'|] eqn:Es; [|discriminate]. cbn [put_task] in E. injection E as <- <-. cbn [pr_tasks].
      destruct (Nat.eq_dec k i) as [->|Hne].
      - assert (tk = t) as -> by congruence. exists tk'. split; [exact (nth_set_same _ _ _ _ Ek)|]. right. left. eauto.
      - exists t. rewrite nth_set_nth_other by congruence. split; [exact Ht|]. left. split; [auto|]. split; congruence. }
    11: { cbn [app_step] in E. destruct (nth_error (pr_tasks (wd_process w)) k) as [tk|] eqn:Ek; [|discriminate].
      destruct (tick_task_step utc upcoming (token_cancelled tk (wd_process w)) tk e) as [tk'|] eqn:Es; [|discriminate]. cbn [put_task] in E. injection E as <- <-. cbn [pr_tasks].
      destruct (Nat.eq_dec k i) as [->|Hne].
      - assert (tk = t) as -> by congruence. exists tk'. split; [exact (nth_set_same _ _ _ _ Ek)|]. right. right. eauto.
      - exists t. rewrite nth_set_nth_other by congruence. split; [exact Ht|]. left. split; [auto|]. split; congruence. }
    all: destruct (step_task utc upcoming show _ _ _ _ _ _ _ E Ht) as [t' [H1 H2]]; exists t'; (split; [exact H1|]); left;
      (split; [|split; discriminate]); destruct H2 as [->|[[_ ->]|[[e' [H2 _]]|[e' [H2 _]]]]]; auto; discriminate.
  Qed.
  Lemma ons_process now b l (w w' : world) : ons now b l w = Some w' -> wd_process w' = wd_process w.
  Proof. intro H. destruct (ons_stores p _ _ _ _ _ H) as [E _]. exact E. Qed.
  Lemma ask_process now i n b : forall l (w w' : world), ask_all p now i n b l w = Some w' -> wd_process w' = wd_process w.
  Proof.
    induction l as [|o l IH]; intros w w' H; cbn [ask_all] in H; [injection H as <-; reflexivity|].
    unfold ask_for in H. destruct (nth_error (wd_stores w) b); [|discriminate]. destruct (ons now b (LCall o) w) as [w1|] eqn:E; [|discriminate].
    rewrite (IH _ _ H). cbn [wd_process]. eapply ons_process. exact E.
  Qed.
  Lemma ask_one now i n b o (w w' : world) : ask_for p now i n b o w = Some w' -> ask_all p now i n b [o] w = Some w'.
  Proof. cbn [ask_all]. intros ->. reflexivity. Qed.
  Lemma connect_process now : forall l (w w' : world), connect_all p now l w = Some w' -> wd_process w' = wd_process w.
  Proof.
    induction l as [|t l IH]; intros w w' H; cbn [connect_all] in H; [injection H as <-; reflexivity|].
    destruct (connect p now t w) as [w1|] eqn:E; [|discriminate]. rewrite (IH _ _ H). unfold connect in E. destruct (ta_body t); try (injection E as <-; reflexivity).
    destruct (nth_error (wd_stores w) (ta_backend t)); [|discriminate]. destruct (ons now _ _ w) as [w2|] eqn:E2; [|discriminate]. injection E as <-. cbn [wd_process]. eapply ons_process. exact E2.
  Qed.

  Lemma step_becomes now w ev w' i t : vstep now w ev = Some w' -> nth_error (pr_tasks (wd_process w)) i = Some t ->
    exists t', nth_error (pr_tasks (wd_process w')) i = Some t' /\ becomes i w ev t t'.
  Proof.
    intros H Ht.
    assert (Hsame : wd_process w' = wd_process w -> ~ step_of i ev -> exists t', nth_error (pr_tasks (wd_process w')) i = Some t' /\ becomes i w ev t t').
    { intros E Hn. exists t. rewrite E. split; [exact Ht|]. left. auto. }
    assert (Hw : forall k e w1 w2, onp now (AWorker k e) w1 = Some w2 -> wd_process w1 = wd_process w -> wd_process w' = wd_process w2 ->
              (step_of i ev -> k = i) -> (k = i -> worker_does i ev e) -> exists t', nth_error (pr_tasks (wd_process w')) i = Some t' /\ becomes i w ev t t').
    { intros k e w1 w2 H1 E1 E2 Ha Hd. rewrite <- E1 in Ht. destruct (onp_becomes _ _ _ _ _ _ H1 Ht) as [t' [N D]]. exists t'. rewrite E2. split; [exact N|].
      destruct D as [[D [N1 N2]]|[[e' [D1 D2]]|[e' [D1 D2]]]].
      - left. split; [|exact D]. intro A. apply (N1 e). f_equal. exact (Ha A).
      - injection D1 as -> <-. right. left. exists e. auto.
      - discriminate. }
    assert (Hk : forall k e w2, onp now (ATick k e) w = Some w2 -> wd_process w' = wd_process w2 ->
              (step_of i ev -> k = i) -> (k = i -> loop_does i ev e) -> exists t', nth_error (pr_tasks (wd_process w')) i = Some t' /\ becomes i w ev t t').
    { intros k e w2 H1 E2 Ha Hd. destruct (onp_becomes _ _ _ _ _ _ H1 Ht) as [t' [N D]]. exists t'. rewrite E2. split; [exact N|].
      destruct D as [[D [N1 N2]]|[[e' [D1 D2]]|[e' [D1 D2]]]].
      - left. split; [|exact D]. intro A. apply (N2 e). f_equal. exact (Ha A).
      - discriminate.
      - injection D1 as -> <-. right. right. exists e. auto. }
    destruct ev as [|a|b o|b c|k|k|k|k n|k n now1 now2 o|k n|k|k c0 c1|k c|k|k c|k c]; cbn [world_step] in H.
    - injection H as <-. apply Hsame; [reflexivity|intros []].
    - unfold world_app in H.
      assert (G : forall w2, onp now a w = Some w2 -> wd_process w' = wd_process w2 -> (forall k e, a <> AWorker k e) -> (forall k e, a <> ATick k e) ->
                exists t', nth_error (pr_tasks (wd_process w')) i = Some t' /\ becomes i w (VApp a) t t').
      { intros w2 H1 E2 N1 N2. destruct (onp_becomes _ _ _ _ _ _ H1 Ht) as [t' [N D]]. exists t'. rewrite E2. split; [exact N|].
        destruct D as [[D _]|[[e' [D1 D2]]|[e' [D1 D2]]]]; [left; split; [intros []|exact D]|destruct (N1 _ _ D1)|destruct (N2 _ _ D1)]. }
      destruct a; try discriminate;
        [destruct (Nat.ltb _ _); [|discriminate]; eapply G; [exact H|reflexivity|discriminate..]|..].
      all: destruct (onp now _ w) as [w1|] eqn:E; [|discriminate]; eapply G; [reflexivity|eapply connect_process; exact H|discriminate..].
    - apply Hsame; [eapply ons_process; exact H|intros []].
    - apply Hsame; [eapply ons_process; exact H|intros []].
    - unfold world_poll in H. destruct (nth_error (pr_tasks (wd_process w)) k) as [tk|]; [|discriminate].
      destruct (nth_error (wd_streams w) k) as [[q|]|]; try discriminate. destruct (ta_body tk); try discriminate. destruct (polls _ _); [|discriminate].
      destruct (ons now _ _ w) as [w1|] eqn:E; [|discriminate]. pose proof (ons_process _ _ _ _ _ E) as Ep.
      destruct (stream_at _ _ w1) as [[| | | | |[j|er|]|]|]; try (injection H as <-; apply Hsame; [exact Ep|intros []]);
        (eapply Hw; [exact H|exact Ep|reflexivity|intros []|auto]).
    - unfold world_recv in H. destruct (nth_error (pr_tasks (wd_process w)) k) as [tk|]; [|discriminate].
      destruct (nth_error (wd_streams w) k) as [[q|]|]; try discriminate. destruct (ta_body tk); try discriminate. destruct (polls _ _); [|discriminate].
      apply Hsame; [eapply ons_process; exact H|intros []].
    - eapply Hw; [exact H|reflexivity|reflexivity|auto|cbn; auto].
    - eapply Hw; [exact H|reflexivity|reflexivity|auto|cbn; auto].
    - unfold world_end in H. destruct (onp now _ w) as [w1|] eqn:E; [|discriminate].
      destruct (nth_error (pr_tasks (wd_process w1)) k) as [t1|]; [|discriminate].
      assert (Ep : wd_process w' = wd_process w1).
      { destruct (ta_body t1) as [e1 wk1| |]; try (injection H as <-; reflexivity).
        destruct (flight_of n (w_flights wk1)) as [[|x|op]|]; try (injection H as <-; reflexivity). eapply ask_process, ask_one. exact H. }
      eapply Hw; [exact E|reflexivity|exact Ep|auto|cbn; auto].
    - unfold world_answer in H. destruct (replies k n w) as [|[[| | | | |[|r| |]]|] [|]]; try discriminate.
      eapply Hw; [exact H|reflexivity|reflexivity|auto|cbn; auto].
    - eapply Hw; [exact H|reflexivity|reflexivity|auto|cbn; auto].
    - eapply Hk; [exact H|reflexivity|auto|cbn; auto].
    - unfold world_wake in H. destruct (onp now _ w) as [w1|] eqn:E; [|discriminate].
      destruct (nth_error (pr_tasks (wd_process w1)) k) as [t1|]; [|discriminate].
      assert (Ep : wd_process w' = wd_process w1) by (destruct (firings (ta_body t1)) as [|[c' next] ?]; [injection H as <-; reflexivity|eapply ask_process; exact H]).
      eapply Hk; [exact E|exact Ep|auto|cbn; auto].
    - eapply Hk; [exact H|reflexivity|auto|cbn; auto].
    - unfold world_acted in H. destruct (nth_error (pr_tasks (wd_process w)) k) as [t1|]; [|discriminate]. cbn zeta in H.
      destruct (existsb _ _); [|destruct (forallb _ _); [|discriminate]]; (eapply Hk; [exact H|reflexivity|auto|cbn; auto]).
    - eapply Hk; [exact H|reflexivity|auto|cbn; auto].
  Qed.

  (** Asks stay and calls do not go back. *)
  Definition grown (w w' : world) : Prop :=
    (exists l, wd_asks w' = wd_asks w ++ l)
    /\ forall b s, nth_error (wd_stores w) b = Some s -> exists s', nth_error (wd_stores w') b = Some s'
         /\ forall c x, nth_error (c_calls s) c = Some x -> call_ok x -> exists x', nth_error (c_calls s') c = Some x' /\ later_call x x'.
  Lemma grown_same (w w' : world) : wd_asks w' = wd_asks w -> wd_stores w' = wd_stores w -> grown w w'.
  Proof.
    intros E1 E2. split; [exists []; rewrite app_nil_r; exact E1|]. intros b s Hs. exists s. rewrite E2. split; [exact Hs|]. intros c x Hc Ho. exists x. split; [exact Hc|apply later_refl, Ho].
  Qed.
  Lemma grown_trans w1 w2 w3 : grown w1 w2 -> grown w2 w3 -> grown w1 w3.
  Proof.
    intros [[l1 A1] A2] [[l2 B1] B2]. split; [exists (l1 ++ l2); rewrite B1, A1, app_assoc; reflexivity|].
    intros b s Hs. destruct (A2 b s Hs) as [s1 [Hs1 K1]]. destruct (B2 b s1 Hs1) as [s2 [Hs2 K2]]. exists s2. split; [exact Hs2|].
    intros c x Hc Ho. destruct (K1 c x Hc Ho) as [x1 [Hc1 L1]]. destruct (K2 c x1 Hc1 (proj2 (proj2 (proj2 L1)))) as [x2 [Hc2 L2]]. exists x2. split; [exact Hc2|]. eapply later_trans; eassumption.
  Qed.
  Lemma ons_grown now b l (w w' : world) : ons now b l w = Some w' -> grown w w'.
  Proof.
    intro H. split; [exists []; rewrite app_nil_r; eapply ons_asks; exact H|]. destruct (ons_stores p _ _ _ _ _ H) as [_ [s [Es Est]]].
    intros b' s' Hs'. rewrite Est. destruct (Nat.eq_dec b b') as [<-|Hne].
    - assert (s' = s) as -> by congruence. eexists. split; [exact (nth_set_same _ _ _ _ Es)|]. intros c x Hc Ho. destruct (conc_later p s l c x Hc Ho) as [x' [K1 [K2 _]]]. eauto.
    - exists s'. rewrite nth_set_nth_other by congruence. split; [exact Hs'|]. intros c x Hc Ho. exists x. split; [exact Hc|apply later_refl, Ho].
  Qed.
  Lemma ask_grown now i n b : forall l (w w' : world), ask_all p now i n b l w = Some w' -> grown w w'.
  Proof.
    induction l as [|o l IH]; intros w w' H; cbn [ask_all] in H; [injection H as <-; now apply grown_same|].
    unfold ask_for in H. destruct (nth_error (wd_stores w) b); [|discriminate]. destruct (ons now b (LCall o) w) as [w1|] eqn:E; [|discriminate].
    eapply grown_trans; [eapply ons_grown; exact E|]. eapply grown_trans; [|eapply IH; exact H].
    split; [cbn [wd_asks]; eauto|]. intros b' s' Hs'. cbn [wd_stores]. exists s'. split; [exact Hs'|]. intros cc x Hc Ho. exists x. split; [exact Hc|apply later_refl, Ho].
  Qed.
  Lemma connect_grown now : forall l (w w' : world), connect_all p now l w = Some w' -> grown w w'.
  Proof.
    induction l as [|t l IH]; intros w w' H; cbn [connect_all] in H; [injection H as <-; now apply grown_same|].
    destruct (connect p now t w) as [w1|] eqn:E; [|discriminate]. eapply grown_trans; [|eapply IH; exact H]. unfold connect in E. destruct (ta_body t); try (injection E as <-; now apply grown_same).
    destruct (nth_error (wd_stores w) (ta_backend t)); [|discriminate]. destruct (ons now _ _ w) as [w2|] eqn:E2; [|discriminate]. injection E as <-.
    eapply grown_trans; [eapply ons_grown; exact E2|]. now apply grown_same.
  Qed.
  Lemma onp_grown now a (w w' : world) : onp now a w = Some w' -> grown w w'.
  Proof. unfold on_process. destruct (app_step _ _ _ _ _ _) as [[s r]|]; [|discriminate]. intro H. injection H as <-. now apply grown_same. Qed.

  Lemma step_grown now w ev w' : vstep now w ev = Some w' -> grown w w'.
  Proof.
    intro H. destruct ev as [|a|b o|b c|k|k|k|k n|k n now1 now2 o|k n|k|k c0 c1|k c|k|k c|k c]; cbn [world_step] in H; try (eapply onp_grown; exact H); try (eapply ons_grown; exact H).
    - injection H as <-. split; [exists []; cbn; rewrite app_nil_r; reflexivity|]. intros b s Hs. exists s. cbn [wd_stores]. rewrite nth_error_app1 by (apply nth_error_Some; congruence).
      split; [exact Hs|]. intros c x Hc Ho. exists x. split; [exact Hc|apply later_refl, Ho].
    - unfold world_app in H.
      assert (G : match onp now a w with
        | Some w' => connect_all p now (skipn (length (pr_tasks (wd_process w))) (pr_tasks (wd_process w'))) w'
        | None => None end = Some w' -> grown w w').
      { destruct (onp now a w) as [w1|] eqn:E; [|discriminate]. intro K. eapply grown_trans; [eapply onp_grown; exact E|eapply connect_grown; exact K]. }
      destruct a; try discriminate; try (apply G; exact H). destruct (Nat.ltb _ _); [|discriminate]. eapply onp_grown. exact H.
    - unfold world_poll in H. destruct (nth_error (pr_tasks (wd_process w)) k) as [tk|]; [|discriminate].
      destruct (nth_error (wd_streams w) k) as [[q|]|]; try discriminate. destruct (ta_body tk); try discriminate. destruct (polls _ _); [|discriminate].
      destruct (ons now _ _ w) as [w1|] eqn:E; [|discriminate]. eapply grown_trans; [eapply ons_grown; exact E|].
      destruct (stream_at _ _ w1) as [[| | | | |[j|er|]|]|]; try (injection H as <-; now apply grown_same); eapply onp_grown; exact H.
    - unfold world_recv in H. destruct (nth_error (pr_tasks (wd_process w)) k) as [tk|]; [|discriminate].
      destruct (nth_error (wd_streams w) k) as [[q|]|]; try discriminate. destruct (ta_body tk); try discriminate. destruct (polls _ _); [|discriminate].
      eapply ons_grown. exact H.
    - unfold world_end in H. destruct (onp now _ w) as [w1|] eqn:E; [|discriminate]. eapply grown_trans; [eapply onp_grown; exact E|].
      destruct (nth_error (pr_tasks (wd_process w1)) k) as [t1|]; [|discriminate].
      destruct (ta_body t1) as [e1 wk1| |]; try (injection H as <-; now apply grown_same).
      destruct (flight_of n (w_flights wk1)) as [[|x|op]|]; try (injection H as <-; now apply grown_same). eapply ask_grown, ask_one. exact H.
    - unfold world_answer in H. destruct (replies k n w) as [|[[| | | | |[|r| |]]|] [|]]; try discriminate. eapply onp_grown. exact H.
    - unfold world_wake in H. destruct (onp now _ w) as [w1|] eqn:E; [|discriminate]. eapply grown_trans; [eapply onp_grown; exact E|].
      destruct (nth_error (pr_tasks (wd_process w1)) k) as [t1|]; [|discriminate].
      destruct (firings (ta_body t1)) as [|[c' next] ?]; [injection H as <-; now apply grown_same|eapply ask_grown; exact H].
    - unfold world_acted in H. destruct (nth_error (pr_tasks (wd_process w)) k) as [t1|]; [|discriminate]. cbn zeta in H.
      destruct (existsb _ _); [|destruct (forallb _ _); [|discriminate]]; (eapply onp_grown; exact H).
  Qed.
  (** A step of call [c] brings it nearer to its return. *)
  Lemma run_nearer now w b c w' s x : vstep now w (VRun b c) = Some w' -> nth_error (wd_stores w) b = Some s -> nth_error (c_calls s) c = Some x -> call_ok x ->
    exists s' x', nth_error (wd_stores w') b = Some s' /\ nth_error (c_calls s') c = Some x' /\ later_call x x' /\ (steps_left x' <= pred (steps_left x))%nat.
  Proof.
    intros H Hs Hx Ho. cbn [world_step] in H. destruct (ons_stores p _ _ _ _ _ H) as [_ [s0 [Es Est]]]. assert (s0 = s) as -> by congruence.
    destruct (conc_later p s (LRun c now) c x Hx Ho) as [x' [K1 [K2 K3]]]. do 2 eexists. rewrite Est. split; [exact (nth_set_same _ _ _ _ Es)|]. split; [exact K1|]. split; [exact K2|]. apply K3. eauto.
  Qed.

  (** What a step makes of a worker, and of a loop. *)
  Lemma worker_becomes now w ev w' i t e wk : vstep now w ev = Some w' -> nth_error (pr_tasks (wd_process w)) i = Some t -> ta_body t = BWorker e wk ->
    exists wk', nth_error (pr_tasks (wd_process w')) i = Some (mk_task (ta_backend t) (ta_token t) (BWorker e wk'))
      /\ ((~ step_of i ev /\ wk' = wk) \/ (~ step_of i ev /\ wstep e wk WCancel = Some wk')
          \/ exists a, wstep e wk a = Some wk' /\ a <> WCancel /\ worker_does i ev a).
  Proof.
    intros H Ht Eb. destruct (step_becomes _ _ _ _ _ _ H Ht) as [t' [N B]]. destruct t as [tb tk bd]. cbn [ta_body ta_backend ta_token] in *. subst bd.
    destruct B as [[Hn [-> | ->]]|[[a [Hs Hd]]|[a [Hs _]]]].
    - exists wk. auto.
    - unfold told in N. cbn [ta_token ta_body ta_backend] in N. rewrite Nat.eqb_refl in N. destruct (wstep e wk WCancel) as [wk'|] eqn:E; [exists wk'|exists wk]; auto.
    - unfold worker_task_step in Hs. cbn [ta_body ta_backend ta_token] in Hs.
      destruct (wstep e wk a) as [wk'|] eqn:E; [|destruct a; discriminate].
      assert (Hc : a <> WCancel) by (intros ->; destruct ev; cbn in Hd; try destruct Hd).
      exists wk'. split; [destruct a; try congruence; injection Hs as <-; exact N|]. right. right. eauto.
    - unfold tick_task_step in Hs. cbn [ta_body] in Hs. destruct a; try discriminate; match type of Hs with match ?x with _ => _ end = _ => destruct x end; discriminate.
  Qed.

  Definition vhist (st : nat -> world) (ev : nat -> time * vev) : Prop := st 0%nat = world_init /\ endless vstep st ev.
  Lemma vreach st ev : vhist st ev -> forall n, vrun world_init (first n ev) = Some (st n).
  Proof.
    intros [H0 H] n. induction n as [|n IH]; [cbn; congruence|]. unfold first in *. rewrite seq_S, map_app, vrun_app, IH. cbn [plus map world_run].
    rewrite (surjective_pairing (ev n)). rewrite H. reflexivity.
  Qed.
  Lemma vgrown st ev : vhist st ev -> forall n m, (n <= m)%nat -> grown (st n) (st m).
  Proof.
    intros [_ H] n m L. induction L as [|m L IH]; [now apply grown_same|]. eapply grown_trans; [exact IH|]. eapply step_grown, H.
  Qed.
  Lemma calls_ok es w b s c x : vrun world_init es = Some w -> nth_error (wd_stores w) b = Some s -> nth_error (c_calls s) c = Some x -> call_ok x.
  Proof. intros H Hs Hc. rewrite (store_thm utc upcoming show hash p es w b s H Hs) in Hc. eapply mid_enq, nth_error_In, Hc. Qed.
  Lemma still_returned st ev n m b c : vhist st ev -> (n <= m)%nat -> has_returned (st n) b c -> has_returned (st m) b c.
  Proof.
    intros H L [s [x [r [Hs [Hc Hr]]]]]. destruct (proj2 (vgrown st ev H n m L) b s Hs) as [s' [Hs' K]].
    destruct (K c x Hc (calls_ok _ _ _ _ _ _ (vreach st ev H n) Hs Hc)) as [x' [Hc' [_ [_ [E _]]]]].
    rewrite E in Hc' by (apply zero_done; eauto). exists s', x, r. auto.
  Qed.
  (** Every call returns. *)
  Lemma calls_return st ev : vhist st ev -> calls_go_on st ev -> forall n b s c x, nth_error (wd_stores (st n)) b = Some s -> nth_error (c_calls s) c = Some x ->
    exists m, (n <= m)%nat /\ has_returned (st m) b c.
  Proof.
    intros H Hg n b s c x Hs Hc. remember (steps_left x) as k eqn:E. revert n s x E Hs Hc.
    induction k as [k IH] using lt_wf_ind. intros n s x E Hs Hc.
    pose proof (calls_ok _ _ _ _ _ _ (vreach st ev H n) Hs Hc) as Ho.
    destruct (Hg n b s c x Hs Hc) as [m [L [Hr|Hr]]]; [|eauto].
    destruct (proj2 (vgrown st ev H n m L) b s Hs) as [s1 [Hs1 K]]. destruct (K c x Hc Ho) as [x1 [Hc1 [_ [L1 [_ Ho1]]]]].
    pose proof (proj2 H m) as Hstep. rewrite Hr in Hstep.
    destruct (run_nearer _ _ _ _ _ _ _ Hstep Hs1 Hc1 Ho1) as [s2 [x2 [Hs2 [Hc2 [_ D]]]]].
    destruct (Nat.eq_dec (steps_left x1) 0) as [Ez|Ez].
    - apply zero_done in Ez. destruct Ez as [r Er]. exists m. split; [exact L|]. exists s1, x1, r. auto.
    - destruct (IH (steps_left x2) ltac:(lia) (S m) s2 x2 eq_refl Hs2 Hc2) as [m' [L' R]]. exists m'. split; [lia|exact R].
  Qed.
  (** Tasks stay. *)
  Lemma worker_stays st ev i e tb tk n wk : vhist st ev -> nth_error (pr_tasks (wd_process (st n))) i = Some (mk_task tb tk (BWorker e wk)) ->
    forall m, (n <= m)%nat -> exists wk', nth_error (pr_tasks (wd_process (st m))) i = Some (mk_task tb tk (BWorker e wk')).
  Proof.
    intros H Ht m L. induction L as [|m L [wk1 IH]]; [eauto|]. destruct (worker_becomes _ _ _ _ _ _ _ _ (proj2 H m) IH eq_refl) as [wk' [N _]]. eauto.
  Qed.

  (** * A job taken is reported *)

  (** How far message [n] of a worker, of worker [i], is from its end. *)
  Definition afar (n : nat) (wk : worker) : nat :=
    match w_life wk, flight_of n (w_flights wk) with Working, Some ph => weight (n, ph) | _, _ => 0 end.
  Definition far (i n : nat) (w : world) : nat :=
    match nth_error (pr_tasks (wd_process w)) i with
    | Some t => match ta_body t with BWorker _ wk => afar n wk | _ => 0 end
    | None => 0
    end.
  Definition had (i n : nat) (w : world) : Prop :=
    exists t e wk, nth_error (pr_tasks (wd_process w)) i = Some t /\ ta_body t = BWorker e wk /\ (n < w_next wk)%nat.
  Lemma does_about i n (ev : vev) a : step_with i n ev -> worker_does i ev a -> about n a.
  Proof. destruct ev; cbn; try tauto; destruct a; cbn; try tauto; intros [_ ->] K; tauto. Qed.
  Lemma about_with i n (ev : vev) : step_with i n ev -> step_of i ev.
  Proof using. clear. destruct ev; cbn; tauto. Qed.

  Lemma far_step es now w ev w' i n : vrun world_init es = Some w -> vstep now w ev = Some w' -> had i n w ->
    had i n w' /\ (far i n w' <= far i n w)%nat /\ (step_with i n ev -> far i n w <> 0%nat -> (far i n w' < far i n w)%nat).
  Proof.
    intros Hr H [t [e [wk [Ht [Eb Hn]]]]]. pose proof (task_winv utc upcoming show hash p es w t e wk Hr (nth_error_In _ _ Ht) Eb) as W.
    destruct (worker_becomes _ _ _ _ _ _ _ _ H Ht Eb) as [wk' [N B]]. unfold far. rewrite Ht, Eb, N. cbn [ta_body].
    assert (Hh : (n < w_next wk')%nat -> had i n w') by (intro K; do 3 eexists; split; [exact N|]; split; [reflexivity|exact K]).
    assert (G : forall a, wstep e wk a = Some wk' -> (n < w_next wk')%nat /\ (afar n wk' <= afar n wk)%nat
              /\ (about n a -> afar n wk <> 0 -> afar n wk' < afar n wk)%nat).
    { intros a Hs. destruct (flight_moves _ _ _ _ _ _ _ _ _ n Hs W Hn) as [Hn' M]. split; [exact Hn'|].
      assert (El : w_life wk = Working) by (unfold worker_step in Hs; destruct (w_life wk); congruence). unfold afar. rewrite El.
      destruct M as [[-> Ha]|[-> |[[m [x [-> ->]]]|[x [op [-> ->]]]]]].
      - split; [destruct (w_life wk'); lia|]. intro K. destruct (Ha K).
      - destruct (w_life wk'); (split; [lia|intros _ K; destruct (flight_of n (w_flights wk)); [unfold weight; destruct f; cbn; lia|congruence]]).
      - destruct (w_life wk'); cbn; split; lia.
      - destruct (w_life wk'); cbn; split; lia. }
    destruct B as [[Hn' ->]|[[Hn' Hs]|[a [Hs [_ Hd]]]]].
    - split; [apply Hh; exact Hn|]. split; [lia|]. intro K. destruct (Hn' (about_with _ _ _ K)).
    - destruct (G _ Hs) as [G1 [G2 _]]. split; [apply Hh; exact G1|]. split; [exact G2|]. intro K. destruct (Hn' (about_with _ _ _ K)).
    - destruct (G _ Hs) as [G1 [G2 G3]]. split; [apply Hh; exact G1|]. split; [exact G2|]. intro K. apply G3. eapply does_about; eassumption.
  Qed.
  Lemma far_later st ev i n k : vhist st ev -> had i n (st k) -> forall m, (k <= m)%nat -> had i n (st m) /\ (far i n (st m) <= far i n (st k))%nat.
  Proof.
    intros H Hh m L. induction L as [|m L [IH1 IH2]]; [auto|]. destruct (far_step _ _ _ _ _ _ _ (vreach st ev H m) (proj2 H m) IH1) as [A [B _]]. split; [exact A|lia].
  Qed.

  Lemma far_some i n w : far i n w <> 0%nat -> exists t e wk ph, nth_error (pr_tasks (wd_process w)) i = Some t /\ ta_body t = BWorker e wk
    /\ w_life wk = Working /\ flight_of n (w_flights wk) = Some ph /\ far i n w = weight (n, ph).
  Proof.
    unfold far, afar. destruct (nth_error (pr_tasks (wd_process w)) i) as [t|] eqn:Et; [|congruence].
    destruct (ta_body t) as [e wk| |] eqn:Eb; try congruence. destruct (w_life wk) eqn:El; try congruence.
    destruct (flight_of n (w_flights wk)) as [ph|] eqn:Ef; [|congruence]. intros _. exists t, e, wk, ph. auto.
  Qed.
  Lemma can_go es w i t e wk n ph : vrun world_init es = Some w -> nth_error (pr_tasks (wd_process w)) i = Some t -> ta_body t = BWorker e wk ->
    w_life wk = Working -> flight_of n (w_flights wk) = Some ph ->
    (forall op, ph = FReporting op -> exists a, filter (fun a => Nat.eqb (ak_task a) i && Nat.eqb (ak_turn a) n) (wd_asks w) = [a] /\ has_returned w (ta_backend t) (ak_call a)) ->
    possible vstep (step_with i n) w.
  Proof.
    intros H Ht Eb El Ef Hret. destruct ph as [m|x|op].
    - assert (exists wk', wstep e wk (WStart n) = Some wk') as [wk' Hs].
      { unfold worker_step. rewrite El, Ef. destruct m as [j|er]; [destruct (begin_job _ _ j)|]; eauto. }
      destruct (do_worker utc upcoming show 0 i w t e wk _ _ Ht Eb Hs ltac:(discriminate)) as [w' [A1 _]]. exists 0, (VStart i n), w'. split; [cbn; auto|]. exact A1.
    - assert (exists wk', wstep e wk (WEnd n 0 0 ODone) = Some wk') as [wk' Hs].
      { unfold worker_step. rewrite El, Ef. eexists; reflexivity. }
      destruct (do_worker utc upcoming show 0 i w t e wk _ _ Ht Eb Hs ltac:(discriminate)) as [w' [A1 [A2 [A3 [A4 _]]]]].
      assert (exists w'', vstep 0 w (VEnd i n 0 0 ODone) = Some w'') as [w'' K].
      { cbn [world_step]. unfold world_end. rewrite A1, A3. cbn [ta_body ta_backend].
        destruct (flight_of n (w_flights wk')) as [[|?|op]|]; try (eexists; reflexivity).
        destruct (task_store utc upcoming show hash p es w i t H Ht) as [s Hst]. unfold ask_for, on_store. rewrite A4, Hst. eexists. reflexivity. }
      exists 0, (VEnd i n 0 0 ODone), w''. split; [cbn; auto|exact K].
    - destruct (Hret op eq_refl) as [a [Ea [s [x [r [Hs [Hc Hr]]]]]]].
      destruct (answer_thm utc upcoming show hash p es w i t e wk n op H Ht Eb Ef) as [a' [c' [E1 [E2 [_ E4]]]]].
      rewrite Ea in E1. injection E1 as <-. unfold call_at in E2. rewrite Ht, Hs, Hc in E2. injection E2 as <-.
      specialize (E4 0). rewrite Hr in E4. destruct E4 as [r' [w' [wk' [_ [K _]]]]]. exists 0, (VAnswer i n), w'. split; [cbn; auto|exact K].
  Qed.

  (** The one ask of a report stays. *)
  Lemma ask_stays st ev k m i n a a' : vhist st ev -> (k <= m)%nat ->
    filter (fun a => Nat.eqb (ak_task a) i && Nat.eqb (ak_turn a) n) (wd_asks (st k)) = [a] ->
    filter (fun a => Nat.eqb (ak_task a) i && Nat.eqb (ak_turn a) n) (wd_asks (st m)) = [a'] -> a' = a.
  Proof.
    intros H L E1 E2. destruct (proj1 (vgrown st ev H k m L)) as [l E]. rewrite E, filter_app, E1 in E2. cbn in E2. injection E2 as -> _. reflexivity.
  Qed.

  Theorem job_goes st ev i n : vhist st ev -> calls_go_on st ev -> just vstep (step_with i n) st ev ->
    forall k, had i n (st k) -> exists m, (k <= m)%nat /\ far i n (st m) = 0%nat.
  Proof.
    intros H Hg Hj k Hh.
    assert (K : forall j, (k <= j)%nat -> far i n (st j) <> 0%nat -> exists m, (j <= m)%nat /\ (far i n (st m) < far i n (st j))%nat).
    2: { destruct (comes_down (fun d => far i n (st (k + d)%nat))) with (n := 0%nat) as [d [_ Ed]]; [|exists (k + d)%nat; split; [lia|exact Ed]].
         intros d Hd. destruct (K (k + d)%nat ltac:(lia) Hd) as [m [L D]]. exists (m - k)%nat. replace (k + (m - k))%nat with m by lia. split; [lia|exact D]. }
    intros j Lj Hd. pose proof (proj1 (far_later st ev i n k H Hh j Lj)) as Hhj.
    (* from [j'] on a step is possible for as long as nothing has changed *)
    assert (G : forall j', (j <= j')%nat ->
              (forall m, (j' <= m)%nat -> far i n (st m) = far i n (st j) -> possible vstep (step_with i n) (st m)) ->
              exists m, (j <= m)%nat /\ (far i n (st m) < far i n (st j))%nat).
    { intros j' Lj' Hp. destruct (Hj j') as [m [L D]]. destruct (far_later st ev i n j H Hhj m ltac:(lia)) as [Hhm F].
      destruct (Nat.eq_dec (far i n (st m)) (far i n (st j))) as [Ef|Ef]; [|exists m; split; lia].
      destruct D as [D|D]; [|destruct (D (Hp m L Ef))].
      destruct (far_step _ _ _ _ _ _ _ (vreach st ev H m) (proj2 H m) Hhm) as [_ [_ F3]]. specialize (F3 D ltac:(lia)).
      exists (S m). split; lia. }
    destruct (far_some _ _ _ Hd) as [t [e [wk [ph [Ht [Eb [El [Ef Ew]]]]]]]].
    assert (Hsame : forall m, (j <= m)%nat -> far i n (st m) = far i n (st j) ->
              exists wk', nth_error (pr_tasks (wd_process (st m))) i = Some (mk_task (ta_backend t) (ta_token t) (BWorker e wk')) /\ w_life wk' = Working
                /\ exists ph', flight_of n (w_flights wk') = Some ph' /\ weight (n, ph') = weight (n, ph)).
    { intros m L E. destruct (worker_stays st ev i e (ta_backend t) (ta_token t) j wk H) with (m := m) as [wk' N]; [destruct t; cbn in *; subst; exact Ht|exact L|].
      exists wk'. split; [exact N|]. destruct (far_some i n (st m)) as [t' [e' [wk'' [ph' [Ht' [Eb' [El' [Ef' Ew']]]]]]]]; [congruence|].
      rewrite N in Ht'. injection Ht' as <-. cbn [ta_body] in Eb'. injection Eb' as <- <-. split; [exact El'|]. exists ph'. split; [exact Ef'|congruence]. }
    destruct ph as [m0|x|op].
    - apply (G j (le_n _)). intros m L E. destruct (Hsame m L E) as [wk' [N [El' [ph' [Ef' Ew']]]]].
      eapply can_go; [exact (vreach st ev H m)|exact N|reflexivity|exact El'|exact Ef'|]. intros op ->. discriminate Ew'.
    - apply (G j (le_n _)). intros m L E. destruct (Hsame m L E) as [wk' [N [El' [ph' [Ef' Ew']]]]].
      eapply can_go; [exact (vreach st ev H m)|exact N|reflexivity|exact El'|exact Ef'|]. intros op ->. discriminate Ew'.
    - destruct (report_thm utc upcoming show hash p _ _ i t e wk n op (vreach st ev H j) Ht Eb Ef) as [a [c [E1 [E2 _]]]].
      unfold call_at in E2. rewrite Ht in E2. destruct (nth_error (wd_stores (st j)) (ta_backend t)) as [s|] eqn:Es; [|discriminate].
      destruct (calls_return st ev H Hg j _ s _ c Es E2) as [j' [Lj' R]]. apply (G j' Lj'). intros m L E.
      destruct (Hsame m ltac:(lia) E) as [wk' [N [El' [ph' [Ef' Ew']]]]].
      eapply can_go; [exact (vreach st ev H m)|exact N|reflexivity|exact El'|exact Ef'|]. intros op' ->. cbn [ta_backend].
      destruct (report_thm utc upcoming show hash p _ _ i _ e wk' n op' (vreach st ev H m) N eq_refl Ef') as [a' [c' [E1' _]]].
      assert (a' = a) as -> by (eapply (ask_stays st ev j m); [exact H|lia|exact E1|exact E1']).
      exists a. split; [exact E1'|]. eapply still_returned; [exact H|exact L|exact R].
  Qed.

  (** * A worker that has been told to stop ends *)

  (** Nothing has changed but what has been seen. *)
  Definition alike (a b : worker) : Prop :=
    w_life b = w_life a /\ w_open b = w_open a /\ w_flights b = w_flights a /\ w_cancelled a = true /\ w_cancelled b = true.
  Definition fuel_of (i : nat) (w : world) : nat :=
    match nth_error (pr_tasks (wd_process w)) i with
    | Some t => match ta_body t with BWorker _ wk => fuel wk | _ => 0 end
    | None => 0
    end.
  Lemma stop_step now w ev w' i t e wk : vstep now w ev = Some w' -> nth_error (pr_tasks (wd_process w)) i = Some t -> ta_body t = BWorker e wk -> w_cancelled wk = true ->
    exists wk', nth_error (pr_tasks (wd_process w')) i = Some (mk_task (ta_backend t) (ta_token t) (BWorker e wk')) /\ w_cancelled wk' = true
      /\ ((alike wk wk' /\ ~ step_of i ev) \/ (fuel wk' < fuel wk)%nat).
  Proof.
    intros H Ht Eb Hc. destruct (worker_becomes _ _ _ _ _ _ _ _ H Ht Eb) as [wk' [N B]]. exists wk'. split; [exact N|].
    destruct B as [[Hn ->]|[[Hn Hs]|[a [Hs [Ha _]]]]].
    - split; [exact Hc|]. left. unfold alike. auto 10.
    - unfold worker_step in Hs. destruct (w_life wk) eqn:El; try discriminate. injection Hs as <-. split; [reflexivity|]. left. split; [|exact Hn].
      unfold alike. cbn. auto 10.
    - destruct (fuel_step _ _ _ _ _ _ _ _ _ Hs Hc) as [F1 [_ F2]]. split; [exact F1|]. right. exact (F2 Ha).
  Qed.
  Lemma alike_fuel a b : alike a b -> fuel b = fuel a.
  Proof. intros [A1 [A2 [A3 _]]]. unfold fuel, load. rewrite A1, A2, A3. reflexivity. Qed.
  Lemma alike_trans a b c : alike a b -> alike b c -> alike a c.
  Proof. intros [A1 [A2 [A3 [A4 A5]]]] [B1 [B2 [B3 [B4 B5]]]]. unfold alike. repeat split; congruence. Qed.
  Lemma stop_later st ev i j t e wk : vhist st ev -> nth_error (pr_tasks (wd_process (st j))) i = Some t -> ta_body t = BWorker e wk -> w_cancelled wk = true ->
    forall m, (j <= m)%nat -> exists wk', nth_error (pr_tasks (wd_process (st m))) i = Some (mk_task (ta_backend t) (ta_token t) (BWorker e wk')) /\ w_cancelled wk' = true
      /\ (alike wk wk' \/ (fuel wk' < fuel wk)%nat).
  Proof.
    intros H Ht Eb Hc m L. induction L as [|m L [wk1 [N1 [C1 D1]]]].
    - exists wk. split; [destruct t; cbn in *; subst; exact Ht|]. split; [exact Hc|]. left. unfold alike. auto 10.
    - destruct (stop_step _ _ _ _ _ _ _ _ (proj2 H m) N1 eq_refl C1) as [wk' [N2 [C2 D2]]]. cbn [ta_backend ta_token] in N2. exists wk'. split; [exact N2|]. split; [exact C2|].
      destruct D1 as [D1|D1], D2 as [[D2 _]|D2].
      + left. eapply alike_trans; eassumption.
      + right. rewrite (alike_fuel _ _ D1) in D2. exact D2.
      + right. rewrite (alike_fuel _ _ D2). exact D1.
      + right. lia.
  Qed.
  Lemma with_of i n (ev : vev) : step_with i n ev -> step_of i ev.
  Proof using. clear. destruct ev; cbn; tauto. Qed.

  Theorem worker_ends st ev i k t e wk : vhist st ev -> calls_go_on st ev -> just vstep (step_of i) st ev ->
    nth_error (pr_tasks (wd_process (st k))) i = Some t -> ta_body t = BWorker e wk -> w_cancelled wk = true ->
    (forall l, ex_max_concurrency (xe_consts e) = Some l -> 0 <= l) ->
    exists m t', (k <= m)%nat /\ nth_error (pr_tasks (wd_process (st m))) i = Some t' /\ (ended t' \/ died t').
  Proof.
    intros H Hg Hj Ht Eb Hc Hlim.
    assert (Fu : forall m wk1, nth_error (pr_tasks (wd_process (st m))) i = Some (mk_task (ta_backend t) (ta_token t) (BWorker e wk1)) -> fuel_of i (st m) = fuel wk1)
      by (intros m wk1 N; unfold fuel_of; rewrite N; reflexivity).
    assert (K : forall j, (k <= j)%nat -> fuel_of i (st j) <> 0%nat -> exists m, (j <= m)%nat /\ (fuel_of i (st m) < fuel_of i (st j))%nat).
    2: { destruct (comes_down (fun d => fuel_of i (st (k + d)%nat))) with (n := 0%nat) as [d [_ Ed]].
         - intros d Hd. destruct (K (k + d)%nat ltac:(lia) Hd) as [m [L D]]. exists (m - k)%nat. replace (k + (m - k))%nat with m by lia. split; [lia|exact D].
         - destruct (stop_later st ev i k t e wk H Ht Eb Hc (k + d)%nat ltac:(lia)) as [wk' [N _]]. exists (k + d)%nat. eexists. split; [lia|]. split; [exact N|].
           rewrite (Fu _ _ N) in Ed. unfold fuel in Ed. unfold ended, died. cbn [ta_body]. destruct (w_life wk'); [discriminate|auto..]. }
    intros j Lj Hd. destruct (stop_later st ev i k t e wk H Ht Eb Hc j Lj) as [wkj [Nj [Cj _]]]. rewrite (Fu _ _ Nj) in Hd |- *.
    assert (Elj : w_life wkj = Working) by (unfold fuel in Hd; destruct (w_life wkj); congruence).
    assert (G : forall j', (j <= j')%nat ->
              (forall m wk1, (j' <= m)%nat -> nth_error (pr_tasks (wd_process (st m))) i = Some (mk_task (ta_backend t) (ta_token t) (BWorker e wk1)) -> alike wkj wk1 ->
                 possible vstep (step_of i) (st m)) ->
              exists m, (j <= m)%nat /\ (fuel_of i (st m) < fuel wkj)%nat).
    { intros j' Lj' Hp. destruct (Hj j') as [m [L D]]. destruct (stop_later st ev i j _ e wkj H Nj eq_refl Cj m ltac:(lia)) as [wkm [Nm [Cm [Am|Am]]]]; cbn [ta_backend ta_token] in Nm.
      - destruct D as [D|D]; [|destruct (D (Hp m wkm L Nm Am))].
        destruct (stop_step _ _ _ _ _ _ _ _ (proj2 H m) Nm eq_refl Cm) as [wk' [N2 [_ [[_ D2]|D2]]]]; [destruct (D2 D)|].
        exists (S m). split; [lia|]. rewrite (Fu _ _ N2), <- (alike_fuel _ _ Am). exact D2.
      - exists m. split; [lia|]. rewrite (Fu _ _ Nm). exact Am. }
    assert (Pos : forall m n ph wk1, nth_error (pr_tasks (wd_process (st m))) i = Some (mk_task (ta_backend t) (ta_token t) (BWorker e wk1)) -> alike wkj wk1 ->
              flight_of n (w_flights wkj) = Some ph ->
              (forall op, ph = FReporting op -> exists a, filter (fun a => Nat.eqb (ak_task a) i && Nat.eqb (ak_turn a) n) (wd_asks (st m)) = [a] /\ has_returned (st m) (ta_backend t) (ak_call a)) ->
              possible vstep (step_of i) (st m)).
    { intros m n ph wk1 N A Ef Hop. destruct A as [A1 [_ [A3 _]]].
      destruct (can_go _ _ _ _ _ _ n ph (vreach st ev H m) N eq_refl) as [now [vv [w' [P1 P2]]]]; [congruence|congruence|exact Hop|].
      exists now, vv, w'. split; [eapply with_of; exact P1|exact P2]. }
    destruct (w_flights wkj) as [|[n ph] l] eqn:Ef.
    - assert (Hb : below_limit (ex_max_concurrency (xe_consts e)) 0 = true).
      { unfold below_limit. destruct (ex_max_concurrency (xe_consts e)) as [l|]; [|reflexivity]. specialize (Hlim l eq_refl).
        destruct (Z.eqb_spec l 0); [reflexivity|]. cbn [orb]. apply Z.ltb_lt. cbn. lia. }
      apply (G j (le_n _)). intros m wk1 L N [A1 [A2 [A3 [A4 A5]]]]. destruct (w_open wkj) eqn:Eo.
      + destruct (do_worker utc upcoming show 0 i (st m) _ e wk1 WClose (mk_worker (w_flights wk1) (w_next wk1) (w_cancelled wk1) false None (w_life wk1) (w_seen wk1)) N eq_refl) as [w2 [B1 _]];
          [unfold worker_step; rewrite A1, A2, A3, A5, Ef, Elj; cbn [length andb]; rewrite Hb; reflexivity|discriminate|].
        exists 0, (VClose i), w2. split; [reflexivity|exact B1].
      + destruct (do_worker utc upcoming show 0 i (st m) _ e wk1 WFinish (mk_worker [] (w_next wk1) (w_cancelled wk1) false None Ended (w_seen wk1)) N eq_refl) as [w2 [B1 _]];
          [unfold worker_step; rewrite A1, A2, A3, Ef, Elj; reflexivity|discriminate|].
        exists 0, (VFinish i), w2. split; [reflexivity|exact B1].
    - assert (Fn : flight_of n (w_flights wkj) = Some ph) by (rewrite Ef; cbn; now rewrite Nat.eqb_refl). rewrite Ef in Fn. 
      destruct ph as [m0|x|op].
      + apply (G j (le_n _)). intros m wk1 L N A. eapply Pos; [exact N|exact A|exact Fn|discriminate].
      + apply (G j (le_n _)). intros m wk1 L N A. eapply Pos; [exact N|exact A|exact Fn|discriminate].
      + rewrite <- Ef in Fn. destruct (report_thm utc upcoming show hash p _ _ i _ e wkj n op (vreach st ev H j) Nj eq_refl Fn) as [a [c [E1 [E2 _]]]].
        unfold call_at in E2. rewrite Nj in E2. cbn [ta_backend] in E2. destruct (nth_error (wd_stores (st j)) (ta_backend t)) as [s|] eqn:Es; [|discriminate].
        destruct (calls_return st ev H Hg j _ s _ c Es E2) as [j' [Lj' R]]. apply (G j' Lj'). intros m wk1 L N A.
        eapply Pos; [exact N|exact A|rewrite <- Ef; exact Fn|]. intros op' _.
        assert (Fn' : flight_of n (w_flights wk1) = Some (FReporting op)) by (destruct A as [_ [_ [-> _]]]; exact Fn).
        destruct (report_thm utc upcoming show hash p _ _ i _ e wk1 n op (vreach st ev H m) N eq_refl Fn') as [a' [c' [E1' _]]].
        assert (a' = a) as -> by (eapply (ask_stays st ev j m); [exact H|lia|exact E1|exact E1']).
        exists a. split; [exact E1'|]. eapply still_returned; [exact H|exact L|exact R].
  Qed.

  (** * A loop that has been told to stop ends *)
  Notation tkof := (ticker_of utc upcoming).

  Definition dist (ph : phase) : nat := match ph with Computing => 1 | Resting _ => 2 | Acting _ => 3 | _ => 0 end.
  Lemma dist_step up k a k' : tick_step up k a = Some k' -> dist (tk_phase k) <> 0%nat -> (dist (tk_phase k') < dist (tk_phase k))%nat.
  Proof.
    unfold tick_step. intros H Hd.
    destruct (tk_phase k), a; cbn in Hd; try congruence; try discriminate;
      repeat match type of H with (if ?x then _ else _) = _ => destruct x | (match ?x with _ => _ end) = _ => destruct x end;
      try discriminate; injection H as <-; cbn; lia.
  Qed.
  Lemma loop_becomes now w ev w' i t up k : vstep now w ev = Some w' -> nth_error (pr_tasks (wd_process w)) i = Some t -> tkof t = (Some up, Some k) ->
    exists k', nth_error (pr_tasks (wd_process w')) i = Some (with_ticker k' t)
      /\ ((~ step_of i ev /\ k' = k) \/ exists a, tick_step up k a = Some k' /\ loop_does i ev a).
  Proof.
    intros H Ht Hk. destruct (step_becomes _ _ _ _ _ _ H Ht) as [t' [N B]].
    assert (Hself : with_ticker k t = t) by (destruct t as [tb tk [e wk|e sc z d k0|sc cfg k0]]; unfold ticker_of in Hk; cbn in *; try discriminate; injection Hk as _ <-; reflexivity).
    destruct B as [[Hn [-> | ->]]|[[a [Hs _]]|[a [Hs Hd]]]].
    - exists k. rewrite Hself. auto.
    - exists k. assert (E : told show (ta_token t) t = t).
      { unfold told. rewrite Nat.eqb_refl. unfold ticker_of in Hk. destruct (ta_body t); [discriminate|reflexivity..]. }
      rewrite E in N. rewrite Hself. auto.
    - unfold worker_task_step in Hs. unfold ticker_of in Hk. destruct (ta_body t); try discriminate; destruct a; discriminate.
    - unfold tick_task_step in Hs. unfold ticker_of in Hk. unfold with_ticker. destruct (ta_body t) as [e wk|e sc z d k0|sc cfg k0]; try discriminate; injection Hk as <- <-.
      + destruct (tick_step (upcoming sc z) k0 a) as [k'|] eqn:E; [|destruct a, (token_cancelled t (wd_process w)); discriminate].
        exists k'. split; [|right; eauto]. destruct a, (token_cancelled t (wd_process w)); try discriminate; injection Hs as <-; exact N.
      + destruct (tick_step (upcoming sc utc) k0 a) as [k'|] eqn:E; [|destruct a, (token_cancelled t (wd_process w)); discriminate].
        exists k'. split; [|right; eauto]. destruct a, (token_cancelled t (wd_process w)); try discriminate; injection Hs as <-; exact N.
  Qed.
  Definition dist_of (i : nat) (w : world) : nat :=
    match nth_error (pr_tasks (wd_process w)) i with
    | Some t => match snd (tkof t) with Some k => dist (tk_phase k) | None => 0 end
    | None => 0
    end.
  Lemma with_with k k' (t : tsk) : with_ticker k (with_ticker k' t) = with_ticker k t.
  Proof. unfold with_ticker. cbn. destruct (ta_body t); reflexivity. Qed.
  Lemma loop_stays st ev i j t up k : vhist st ev -> nth_error (pr_tasks (wd_process (st j))) i = Some t -> tkof t = (Some up, Some k) ->
    forall m, (j <= m)%nat -> exists k', nth_error (pr_tasks (wd_process (st m))) i = Some (with_ticker k' t).
  Proof.
    intros H Ht Hk m L. induction L as [|m L [k1 IH]].
    - exists k. rewrite Ht. f_equal. destruct t as [tb tk [e wk|e sc z d k0|sc cfg k0]]; unfold ticker_of in Hk; cbn in *; try discriminate; injection Hk as _ <-; reflexivity.
    - destruct (loop_becomes _ _ _ _ _ _ _ _ (proj2 H m) IH (with_ticker_of utc upcoming t up k k1 Hk)) as [k' [N _]]. rewrite with_with in N. eauto.
  Qed.
  Lemma loop_waits st ev i j t up k : vhist st ev -> nth_error (pr_tasks (wd_process (st j))) i = Some t -> tkof t = (Some up, Some k) ->
    dist (tk_phase k) <> 0%nat ->
    forall m, (j <= m)%nat -> nth_error (pr_tasks (wd_process (st m))) i = Some t \/ exists m', (j <= m' <= m)%nat /\ (dist_of i (st m') < dist (tk_phase k))%nat.
  Proof.
    intros H Ht Hk Hd m L. induction L as [|m L [IH|[m' [L' D]]]]; [auto| |right; exists m'; split; [lia|exact D]].
    destruct (loop_becomes _ _ _ _ _ _ _ _ (proj2 H m) IH Hk) as [k' [N [[_ ->]|[a [Hs _]]]]].
    - left. rewrite N. f_equal. destruct t as [tb tk [e wk|e sc z d k0|sc cfg k0]]; unfold ticker_of in Hk; cbn in *; try discriminate; injection Hk as _ <-; reflexivity.
    - right. exists (S m). split; [lia|]. unfold dist_of. rewrite N, (with_ticker_of utc upcoming t up k k' Hk). cbn [snd]. eapply dist_step; eassumption.
  Qed.
  (** All of some calls return. *)
  Lemma all_return st ev b : vhist st ev -> calls_go_on st ev -> forall l n,
    (forall c, In c l -> exists s x, nth_error (wd_stores (st n)) b = Some s /\ nth_error (c_calls s) c = Some x) ->
    exists m, (n <= m)%nat /\ forall c, In c l -> has_returned (st m) b c.
  Proof.
    intros H Hg l n. induction l as [|c l IH]; intro Hl; [exists n; split; [lia|intros c []]|].
    destruct IH as [m [L K]]; [intros c' Hc'; apply Hl; right; exact Hc'|].
    destruct (Hl c (or_introl eq_refl)) as [s [x [Hs Hc]]]. destruct (calls_return st ev H Hg n b s c x Hs Hc) as [m' [L' R]].
    exists (Nat.max m m'). split; [lia|]. intros c' [<-|Hc'].
    - eapply still_returned; [exact H| |exact R]. lia.
    - eapply still_returned; [exact H| |exact (K c' Hc')]. lia.
  Qed.
  Lemma can_tick now w i t up k a k' vv : nth_error (pr_tasks (wd_process w)) i = Some t -> tkof t = (Some up, Some k) -> tick_step up k a = Some k' ->
    token_cancelled t (wd_process w) = true \/ a <> Cancel ->
    vstep now w vv = onp now (ATick i a) w -> step_of i vv -> possible vstep (step_of i) w.
  Proof.
    intros Ht Hk Hs Hc Hv Ho.
    destruct (do_tick utc upcoming show now i w t a (with_ticker k' t) Ht (tick_with utc upcoming _ _ _ _ _ _ Hk Hs Hc)) as [w' [B1 _]].
    exists now, vv, w'. split; [exact Ho|congruence].
  Qed.

  (** A loop is asleep, or over, again and again. *)
  Lemma loop_rests st ev i n t up k : vhist st ev -> calls_go_on st ev -> just vstep (step_of i) st ev ->
    nth_error (pr_tasks (wd_process (st n))) i = Some t -> tkof t = (Some up, Some k) ->
    forall j, (n <= j)%nat -> exists m, (j <= m)%nat /\ dist_of i (st m) = 0%nat.
  Proof.
    intros H Hg Hj Ht0 Hk0 j0 Lj0.
    assert (K : forall j, (n <= j)%nat -> dist_of i (st j) <> 0%nat -> exists m, (j <= m)%nat /\ (dist_of i (st m) < dist_of i (st j))%nat).
    2: { destruct (comes_down (fun d => dist_of i (st (j0 + d)%nat))) with (n := 0%nat) as [d [_ Ed]].
         - intros d Hd. destruct (K (j0 + d)%nat ltac:(lia) Hd) as [m [L D]]. exists (m - j0)%nat. replace (j0 + (m - j0))%nat with m by lia. split; [lia|exact D].
         - exists (j0 + d)%nat. split; [lia|exact Ed]. }
    intros j Lj Hd. destruct (loop_stays st ev i n t up k H Ht0 Hk0 j Lj) as [kj Ht]. set (tj := with_ticker kj t) in *.
    assert (Hk : tkof tj = (Some up, Some kj)) by (eapply with_ticker_of; exact Hk0).
    assert (Ed : dist_of i (st j) = dist (tk_phase kj)) by (unfold dist_of; rewrite Ht, Hk; reflexivity). rewrite Ed in Hd |- *.
    assert (G : forall j', (j <= j')%nat -> (forall m, (j' <= m)%nat -> nth_error (pr_tasks (wd_process (st m))) i = Some tj -> possible vstep (step_of i) (st m)) ->
              exists m, (j <= m)%nat /\ (dist_of i (st m) < dist (tk_phase kj))%nat).
    { intros j' Lj' Hp. destruct (Hj j') as [m [L D]]. destruct (loop_waits st ev i j tj up kj H Ht Hk Hd m ltac:(lia)) as [N|[m' [L' D']]]; [|exists m'; split; [lia|exact D']].
      destruct D as [D|D]; [|destruct (D (Hp m L N))].
      destruct (loop_becomes _ _ _ _ _ _ _ _ (proj2 H m) N Hk) as [k' [N' [[B _]|[a [Hs _]]]]]; [destruct (B D)|].
      exists (S m). split; [lia|]. unfold dist_of. rewrite N', (with_ticker_of utc upcoming tj up kj k' Hk). cbn [snd]. eapply dist_step; eassumption. }
    destruct (tk_phase kj) as [|nx u|nx|u| |] eqn:Ep; cbn in Hd; try congruence; clear Hd.
    - apply (G j (le_n _)). intros m L N.
      assert (exists k', tick_step up kj (Compute (tk_clock kj) (tk_clock kj)) = Some k') as [k' Hs].
      { unfold tick_step. rewrite Ep, Z.leb_refl. cbn [andb]. destruct (up (tk_clock kj)); eauto. }
      eapply (can_tick 0 _ _ _ _ _ _ _ (VCompute i _ _)); [exact N|exact Hk|exact Hs|right; discriminate|reflexivity|reflexivity].
    - set (turn := length (firings (ta_body tj))).
      set (own_asks := fun w : world => filter (fun a => Nat.eqb (ak_task a) i && Nat.eqb (ak_turn a) turn) (wd_asks w)).
      destruct (all_return st ev (ta_backend tj) H Hg (map ak_call (own_asks (st j))) j) as [j' [Lj' R]].
      { intros c Hc. pose proof (turn_asks utc upcoming show hash p _ _ i tj turn (vreach st ev H j) Ht) as E.
        apply in_map_iff in Hc. destruct Hc as [a [<- Ha]]. apply (in_map (fun a => option_map cl_op (call_at (st j) i (ak_call a)))) in Ha.
        unfold own_asks in Ha. rewrite E in Ha. apply in_map_iff in Ha. destruct Ha as [y [Ey _]]. unfold call_at in Ey. rewrite Ht in Ey.
        destruct (nth_error (wd_stores (st j)) (ta_backend tj)) as [s|]; [|discriminate].
        destruct (nth_error (c_calls s) (ak_call a)) as [x|] eqn:Ex; [|discriminate]. eauto. }
      apply (G j' Lj'). intros m L N.
      assert (Ea : own_asks (st m) = own_asks (st j)).
      { destruct (proj1 (vgrown st ev H j m ltac:(lia))) as [l E]. unfold own_asks. rewrite E, filter_app.
        assert (Hlen : length (own_asks (st m)) = length (own_asks (st j))).
        { pose proof (turn_asks utc upcoming show hash p _ _ i tj turn (vreach st ev H j) Ht) as E1.
          pose proof (turn_asks utc upcoming show hash p _ _ i tj turn (vreach st ev H m) N) as E2.
          apply (f_equal (@length _)) in E1, E2. rewrite !map_length in E1, E2. unfold own_asks. congruence. }
        unfold own_asks in Hlen. rewrite E, filter_app, app_length in Hlen.
        destruct (filter (fun a => Nat.eqb (ak_task a) i && Nat.eqb (ak_turn a) turn) l); [apply app_nil_r|cbn [length] in Hlen; lia]. }
      assert (Hdone : forallb is_done (replies i turn (st m)) = true).
      { rewrite replies_at. fold (own_asks (st m)). rewrite Ea. apply forallb_forall. intros r Hr. apply in_map_iff in Hr. destruct Hr as [a [<- Ha]].
        destruct (still_returned st ev j' m _ _ H L (R (ak_call a) (in_map ak_call _ _ Ha))) as [s [x [r [Es [Ex Er]]]]].
        unfold call_at. rewrite N, Es, Ex. cbn. rewrite Er. reflexivity. }
      assert (Hs : forall b, exists k', tick_step up kj (Acted (tk_clock kj) b) = Some k').
      { intro b. unfold tick_step. rewrite Ep, Z.leb_refl. destruct b; [eauto|]. destruct (0 <? _); eauto. }
      destruct (Hs (existsb is_panic (replies i turn (st m)))) as [k' Hs'].
      eapply (can_tick 0 _ _ _ _ _ _ _ (VActed i (tk_clock kj))); [exact N|exact Hk|exact Hs'|right; discriminate| |reflexivity].
      cbn [world_step]. unfold world_acted. rewrite N. fold turn. cbn zeta. rewrite Hdone. destruct (existsb is_panic _); reflexivity.
    - apply (G j (le_n _)). intros m L N.
      assert (exists k', tick_step up kj (Rested (Z.max (tk_clock kj) u)) = Some k') as [k' Hs].
      { unfold tick_step. rewrite Ep. replace (tk_clock kj <=? Z.max (tk_clock kj) u) with true by (symmetry; apply Z.leb_le; lia).
        replace (u <=? Z.max (tk_clock kj) u) with true by (symmetry; apply Z.leb_le; lia). eexists. reflexivity. }
      eapply (can_tick 0 _ _ _ _ _ _ _ (VRested i _)); [exact N|exact Hk|exact Hs|right; discriminate|reflexivity|reflexivity].
  Qed.

  Lemma first_program k m (ev : nat -> time * vev) h : (k <= m)%nat -> shut h (program (first k ev)) -> shut h (program (first m ev)).
  Proof.
    intros L [now [a [Hi Hs]]]. exists now, a. split; [|exact Hs]. unfold first, program in *.
    replace m with (k + (m - k))%nat by lia. rewrite seq_app, map_app, flat_map_app. apply in_or_app. auto.
  Qed.

  Theorem loop_ends st ev i n t up k : vhist st ev -> calls_go_on st ev -> just vstep (step_of i) st ev -> compassionate vstep (eq (VLeave i)) st ev ->
    nth_error (pr_tasks (wd_process (st n))) i = Some t -> tkof t = (Some up, Some k) -> shut (ta_token t) (program (first n ev)) ->
    exists m t', (n <= m)%nat /\ nth_error (pr_tasks (wd_process (st m))) i = Some t' /\ (ended t' \/ died t').
  Proof.
    intros H Hg Hj Hc Ht Hk Hs. destruct (Hc n) as [m [L [D|D]]].
    - destruct (loop_stays st ev i n t up k H Ht Hk m L) as [km N].
      destruct (loop_becomes _ _ _ _ _ _ _ _ (proj2 H m) N (with_ticker_of utc upcoming _ _ _ _ Hk)) as [k' [N' [[B _]|[a [Hst Hd]]]]].
      + destruct B. rewrite <- D. reflexivity.
      + rewrite <- D in Hd. cbn in Hd. destruct a; try destruct Hd. exists (S m). eexists. split; [lia|]. split; [exact N'|].
        eapply with_ticker_end; [eapply with_ticker_of, with_ticker_of; exact Hk|]. left.
        unfold tick_step in Hst. destruct (tk_phase km); try discriminate. injection Hst as <-. reflexivity.
    - destruct (loop_rests st ev i n t up k H Hg Hj Ht Hk m L) as [m' [L' Z']]. destruct (loop_stays st ev i n t up k H Ht Hk m' ltac:(lia)) as [km N].
      assert (Hkm : tkof (with_ticker km t) = (Some up, Some km)) by (eapply with_ticker_of; exact Hk).
      unfold dist_of in Z'. rewrite N, Hkm in Z'. cbn [snd] in Z'.
      assert (E : (exists nx u, tk_phase km = Sleeping nx u) \/ tk_phase km = Stopped \/ tk_phase km = Crashed) by (destruct (tk_phase km); try discriminate; eauto).
      destruct E as [[nx [u E]]|E].
      + exfalso. apply (D m' L').
        assert (Hcan : token_cancelled (with_ticker km t) (wd_process (st m')) = true).
        { apply (shut_tokens utc upcoming show hash p _ _ _ (vreach st ev H m') (nth_error_In _ _ N)). cbn [with_ticker ta_token]. eapply first_program; [|exact Hs]. lia. }
        assert (exists k', tick_step up km Cancel = Some k') as [k' Hst] by (unfold tick_step; rewrite E; eauto).
        destruct (do_tick utc upcoming show 0 i _ _ Cancel _ N (tick_with utc upcoming _ _ _ _ _ _ Hkm Hst (or_introl Hcan))) as [w' [B1 _]].
        exists 0, (VLeave i), w'. split; [reflexivity|exact B1].
      + exists m'. eexists. split; [lia|]. split; [exact N|]. eapply with_ticker_end; [exact Hkm|exact E].
  Qed.

  Theorem told_ends st ev i n t : vhist st ev -> calls_go_on st ev -> just vstep (step_of i) st ev -> compassionate vstep (eq (VLeave i)) st ev ->
    nth_error (pr_tasks (wd_process (st n))) i = Some t -> shut (ta_token t) (program (first n ev)) -> limits_ok t ->
    exists m t', (n <= m)%nat /\ nth_error (pr_tasks (wd_process (st m))) i = Some t' /\ (ended t' \/ died t').
  Proof.
    intros H Hg Hj Hc Ht Hs Hlim. destruct (ta_body t) as [e wk|e sc z d k|sc cfg k] eqn:Eb.
    - pose proof (shut_worker utc upcoming show hash p _ _ i t e wk (vreach st ev H n) Ht Eb Hs) as Hw. destruct (w_life wk) eqn:El.
      2,3: exists n, t; split; [lia|]; split; [exact Ht|]; unfold ended, died; rewrite Eb; auto.
      eapply worker_ends; [exact H|exact Hg|exact Hj|exact Ht|exact Eb|exact (Hw eq_refl)|]. intros l El'. apply (Hlim e l); [unfold purpose; rewrite Eb; reflexivity|exact El'].
    - eapply loop_ends; [exact H|exact Hg|exact Hj|exact Hc|exact Ht|unfold ticker_of; rewrite Eb; reflexivity|exact Hs].
    - eapply loop_ends; [exact H|exact Hg|exact Hj|exact Hc|exact Ht|unfold ticker_of; rewrite Eb; reflexivity|exact Hs].
  Qed.

  (** * What has become of a job *)
  Lemma seen_step e wk a wk' : wstep e wk a = Some wk' -> incl (w_seen wk) (w_seen wk').
  Proof.
    unfold worker_step. intros H o Ho. destruct (w_life wk); try discriminate.
    destruct a as [m|m| | | | |k|k now1 now2 oc|k r|];
      repeat match type of H with (if ?x then _ else _) = _ => destruct x | (match ?x with _ => _ end) = _ => destruct x end;
      try discriminate; injection H as <-; cbn; auto 10.
  Qed.
  Lemma seen_later st ev i j t e wk : vhist st ev -> nth_error (pr_tasks (wd_process (st j))) i = Some t -> ta_body t = BWorker e wk ->
    forall m, (j <= m)%nat -> exists wk', nth_error (pr_tasks (wd_process (st m))) i = Some (mk_task (ta_backend t) (ta_token t) (BWorker e wk')) /\ incl (w_seen wk) (w_seen wk').
  Proof.
    intros H Ht Eb m L. induction L as [|m L [wk1 [N1 I1]]].
    - exists wk. split; [destruct t; cbn in *; subst; exact Ht|]. intros o Ho. exact Ho.
    - destruct (worker_becomes _ _ _ _ _ _ _ _ (proj2 H m) N1 eq_refl) as [wk' [N2 B]]. exists wk'. split; [exact N2|].
      destruct B as [[_ ->]|[[_ Hs]|[a [Hs _]]]]; [exact I1|intros o Ho; eapply seen_step; [exact Hs|auto]..].
  Qed.

  Definition is_report (o : mop) : Prop :=
    match o with OpComplete _ | OpDiscarded _ _ | OpCancelled _ _ | OpRetryable _ _ _ | OpSnoozed _ _ => True | _ => False end.
  Lemma report_is now1 now2 x o op : report show now1 now2 x o = Some op -> is_report op.
  Proof.
    unfold report, report_error. intro H.
    repeat match type of H with (if ?x then _ else _) = _ => destruct x | (match ?x with _ => _ end) = _ => destruct x end;
      try discriminate; injection H as <-; exact Logic.I.
  Qed.
  Lemma course_end e n l j : course (xe_codec e) (xe_fns e) show n None l -> In (Taken n (MJob j)) l ->
    unreadable (xe_codec e) j \/ exists op, In (Reported n op) l /\ is_report op.
  Proof.
    intros C Hi. inversion C as [| | |j' x o now1 now2 op Hb Hr E1 E2|er E1 E2|j' Hb E1 E2]; subst.
    - right. exists op. split; [cbn; auto 10|eapply report_is; exact Hr].
    - destruct Hi as [Hi|[]]. discriminate.
    - left. destruct Hi as [Hi|[]]. injection Hi as ->. apply begin_logged in Hb. destruct Hb as [er Hb]. apply C48_conversion_outcome.
      unfold typed_of_stored in *. destruct (dec_data (xe_codec e) (j_data j)); [|reflexivity].
      destruct (dec_opt (dec_meta (xe_codec e)) (j_metadata j)); [|reflexivity].
      repeat match type of Hb with (match ?x with _ => _ end) = _ => destruct x end; discriminate.
  Qed.

  Theorem job_done st ev i n k t e wk j : vhist st ev -> calls_go_on st ev -> just vstep (step_with i n) st ev ->
    nth_error (pr_tasks (wd_process (st k))) i = Some t -> ta_body t = BWorker e wk -> In (Taken n (MJob j)) (w_seen wk) ->
    exists m t' wk', (k <= m)%nat /\ nth_error (pr_tasks (wd_process (st m))) i = Some t' /\ ta_body t' = BWorker e wk'
      /\ (w_life wk' = Crashed_worker
          \/ unreadable (xe_codec e) j
          \/ exists a x r, In (Reported n (cl_op x)) (w_seen wk') /\ In a (wd_asks (st m)) /\ ak_task a = i /\ ak_turn a = n
                /\ call_at (st m) i (ak_call a) = Some x /\ cl_pc x = PcDone (RUnit r)).
  Proof.
    intros H Hg Hj Ht Eb Hi.
    assert (Hs : In (Taken n (MJob j)) (story n wk)) by (apply story_in; auto).
    assert (Hn : (n < w_next wk)%nat).
    { eapply story_lt; [eapply task_winv; [exact (vreach st ev H k)|eapply nth_error_In; exact Ht|exact Eb]|]. intro E. rewrite E in Hs. destruct Hs. }
    destruct (job_goes st ev i n H Hg Hj k) as [m [L Z']]; [exists t, e, wk; auto|].
    destruct (seen_later st ev i k t e wk H Ht Eb m L) as [wk' [N I']].
    exists m. eexists. exists wk'. split; [exact L|]. split; [exact N|]. split; [reflexivity|].
    assert (Hw : winv (xe_codec e) (xe_fns e) show wk') by (eapply task_winv; [exact (vreach st ev H m)|eapply nth_error_In; exact N|reflexivity]).
    assert (Hst : In (Taken n (MJob j)) (story n wk')) by (apply story_in; auto).
    assert (Hn' : (n < w_next wk')%nat) by (eapply story_lt; [exact Hw|]; intro E; rewrite E in Hst; destruct Hst).
    assert (D : w_life wk' = Crashed_worker \/ (w_life wk' <> Crashed_worker /\ flight_of n (w_flights wk') = None)).
    { destruct (w_life wk') eqn:El; [right|right|left; reflexivity]; (split; [discriminate|]).
      - unfold far, afar in Z'. rewrite N in Z'. cbn [ta_body] in Z'. rewrite El in Z'.
        destruct (flight_of n (w_flights wk')) as [ph|]; [unfold weight in Z'; cbn in Z'; destruct ph; discriminate|reflexivity].
      - destruct Hw as [_ [_ [_ [_ [W5 _]]]]]. rewrite (W5 El). reflexivity. }
    destruct D as [D|[Hl Hnone]]; [auto|]. right.
    assert (C : course (xe_codec e) (xe_fns e) show n None (story n wk')).
    { destruct Hw as [_ [_ [_ [W4 _]]]]. specialize (W4 n Hn'). rewrite Hnone in W4. destruct (w_life wk'); [exact W4|exact W4|congruence]. }
    destruct (course_end e n _ j C Hst) as [K|[op [K Hop]]]; [auto|right]. apply story_in in K. destruct K as [K _].
    pose proof (turn_asks utc upcoming show hash p _ _ i _ n (vreach st ev H m) N) as E. cbn [ta_body owed] in E.
    assert (Hin : In (Some op) (map (fun x => Some (snd x)) (filter (fun x => Nat.eqb (fst x) n) (reports wk')))).
    { apply in_map_iff. exists (n, op). split; [reflexivity|]. apply filter_In. split; [|cbn; apply Nat.eqb_refl].
      unfold reports. rewrite <- in_rev. apply in_flat_map. exists (Reported n op). split; [exact K|cbn; auto]. }
    rewrite <- E in Hin. apply in_map_iff in Hin. destruct Hin as [a [Ea Ha]]. apply filter_In in Ha. destruct Ha as [Ha Hb].
    apply Bool.andb_true_iff in Hb. destruct Hb as [Hb1 Hb2]. apply Nat.eqb_eq in Hb1, Hb2.
    destruct (call_at (st m) i (ak_call a)) as [x|] eqn:Ec; [|discriminate]. injection Ea as Eo. subst op.
    destruct (covered_thm utc upcoming show hash p _ _ (vreach st ev H m) a Ha) as [t0 [N0 C0]]. rewrite Hb1 in N0, C0. rewrite N in N0. injection N0 as <-. rewrite Hb2 in C0.
    destruct C0 as [[C0|[op C0]]|[x' [r [X1 X2]]]]; [destruct (Hl C0)|congruence|].
    assert (x' = x) as -> by congruence.
    assert (Hfit : fits (cl_op x) r).
    { unfold call_at in Ec. rewrite N in Ec. cbn [ta_backend] in Ec. destruct (nth_error (wd_stores (st m)) (ta_backend t)) as [s|] eqn:Es; [|discriminate].
      rewrite (store_thm utc upcoming show hash p _ _ _ s (vreach st ev H m) Es) in Ec. eapply done_fits; [eapply nth_error_In; exact Ec|exact X2]. }
    assert (Hr : exists r', r = RUnit r') by (destruct (cl_op x); try destruct Hop; destruct r; try destruct Hfit; eexists; reflexivity).
    destruct Hr as [r' ->]. exists a, x, r'. auto 10.
  Qed.

  (** * What is over stays so *)
  Lemma over_stays st ev i n t : vhist st ev -> nth_error (pr_tasks (wd_process (st n))) i = Some t -> ended t \/ died t ->
    forall m, (n <= m)%nat -> nth_error (pr_tasks (wd_process (st m))) i = Some t.
  Proof.
    intros H Ht D m L. induction L as [|m L IH]; [exact Ht|]. destruct (step_becomes _ _ _ _ _ _ (proj2 H m) IH) as [t' [N B]]. rewrite N. f_equal.
    destruct B as [[_ [-> | ->]]|[[a [Hs _]]|[a [Hs _]]]].
    - reflexivity.
    - unfold told. rewrite Nat.eqb_refl. unfold ended, died in D. destruct t as [tb tk [e wk|e sc z d k|sc cfg k]]; cbn [ta_body ta_backend ta_token] in *; try reflexivity.
      unfold worker_step. destruct D as [-> | ->]; reflexivity.
    - exfalso. unfold worker_task_step, ended, died in *. destruct (ta_body t) as [e wk|e sc z d k|sc cfg k]; [|destruct a; discriminate..].
      assert (E : wstep e wk a = None) by (unfold worker_step; destruct D as [-> | ->]; reflexivity). rewrite E in Hs. destruct a; discriminate.
    - exfalso. unfold tick_task_step, ended, died in *.
      assert (E : forall up k, tk_phase k = Stopped \/ tk_phase k = Crashed -> tick_step up k a = None) by (intros up k [E|E]; unfold tick_step; rewrite E; reflexivity).
      destruct (ta_body t) as [e wk|e sc z d k|sc cfg k]; [|rewrite (E _ _ D) in Hs|rewrite (E _ _ D) in Hs];
        destruct a; try discriminate; match type of Hs with match ?x with _ => _ end = _ => destruct x end; discriminate.
  Qed.
  Theorem all_over st ev n : vhist st ev -> calls_go_on st ev -> (forall i, just vstep (step_of i) st ev) -> (forall i, compassionate vstep (eq (VLeave i)) st ev) ->
    (forall t, In t (pr_tasks (wd_process (st n))) -> limits_ok t) ->
    exists m, (n <= m)%nat /\ forall i t, nth_error (pr_tasks (wd_process (st n))) i = Some t -> shut (ta_token t) (program (first n ev)) ->
      exists t', nth_error (pr_tasks (wd_process (st m))) i = Some t' /\ (ended t' \/ died t').
  Proof.
    intros H Hg Hj Hc Hlim.
    assert (K : forall q, exists m, (n <= m)%nat /\ forall i t, (i < q)%nat -> nth_error (pr_tasks (wd_process (st n))) i = Some t ->
                shut (ta_token t) (program (first n ev)) -> exists t', nth_error (pr_tasks (wd_process (st m))) i = Some t' /\ (ended t' \/ died t')).
    { induction q as [|q [m [L IH]]]; [exists n; split; [lia|intros i t Hi; lia]|].
      destruct (nth_error (pr_tasks (wd_process (st n))) q) as [t|] eqn:Et.
      2: { exists m. split; [exact L|]. intros i t Hi Hit. destruct (Nat.eq_dec i q) as [->|Hne]; [congruence|]. apply IH; [lia|exact Hit]. }
      assert (Dec : token_cancelled t (wd_process (st n)) = true \/ token_cancelled t (wd_process (st n)) = false) by (destruct (token_cancelled t (wd_process (st n))); auto).
      pose proof (shut_tokens utc upcoming show hash p _ _ t (vreach st ev H n) (nth_error_In _ _ Et)) as Hsh.
      destruct Dec as [Dec|Dec].
      - destruct (told_ends st ev q n t H Hg (Hj q) (Hc q) Et (proj1 Hsh Dec) (Hlim t (nth_error_In _ _ Et))) as [m' [t' [L' [N' D']]]].
        exists (Nat.max m m'). split; [lia|]. intros i t0 Hi Hit Hs. destruct (Nat.eq_dec i q) as [->|Hne].
        + exists t'. split; [|exact D']. eapply over_stays; [exact H|exact N'|exact D'|lia].
        + destruct (IH i t0 ltac:(lia) Hit Hs) as [t1 [N1 D1]]. exists t1. split; [|exact D1]. eapply over_stays; [exact H|exact N1|exact D1|lia].
      - exists m. split; [exact L|]. intros i t0 Hi Hit Hs. destruct (Nat.eq_dec i q) as [->|Hne]; [|apply (IH i t0 ltac:(lia) Hit Hs)].
        assert (t0 = t) as -> by congruence. apply Hsh in Hs. congruence. }
    destruct (K (length (pr_tasks (wd_process (st n))))) as [m [L G]]. exists m. split; [exact L|]. intros i t Hit Hs. apply (G i t); [apply nth_error_Some; congruence|exact Hit|exact Hs].
  Qed.

  (** * How many steps a worker takes after it has been told to stop *)
  Definition steps (i : nat) (ev : vev) : bool :=
    match ev with
    | VClose k | VStart k _ | VEnd k _ _ _ _ | VAnswer k _ | VFinish k => Nat.eqb k i
    | _ => false
    end.
  Lemma steps_of i ev : steps i ev = true -> step_of i ev.
  Proof. destruct ev; cbn; try discriminate; apply Nat.eqb_eq. Qed.
  Lemma fuel_bound i : forall es w w' t e wk, vrun w es = Some w' -> nth_error (pr_tasks (wd_process w)) i = Some t -> ta_body t = BWorker e wk -> w_cancelled wk = true ->
    (length (filter (fun x => steps i (snd x)) es) <= fuel wk)%nat.
  Proof.
    induction es as [|[now ev] es IH]; intros w w' t e wk H Ht Eb Hc; [cbn; lia|]. cbn [world_run] in H. destruct (vstep now w ev) as [w1|] eqn:E; [|discriminate].
    destruct (stop_step _ _ _ _ _ _ _ _ E Ht Eb Hc) as [wk' [N [C D]]]. specialize (IH _ _ _ _ _ H N eq_refl C). cbn [filter snd].
    destruct (steps i ev) eqn:Es; destruct D as [[D1 D2]|D].
    - destruct (D2 (steps_of _ _ Es)).
    - cbn [length]. lia.
    - rewrite (alike_fuel _ _ D1) in IH. exact IH.
    - lia.
  Qed.
  Lemma stopped_stays i : forall es w w' t e wk, vrun w es = Some w' -> nth_error (pr_tasks (wd_process w)) i = Some t -> ta_body t = BWorker e wk -> w_life wk <> Working ->
    filter (fun x => steps i (snd x)) es = [].
  Proof.
    induction es as [|[now ev] es IH]; intros w w' t e wk H Ht Eb Hc; [reflexivity|]. cbn [world_run] in H. destruct (vstep now w ev) as [w1|] eqn:E; [|discriminate].
    destruct (worker_becomes _ _ _ _ _ _ _ _ E Ht Eb) as [wk' [N B]].
    assert (Hno : forall a, wstep e wk a = None) by (intro a; unfold worker_step; destruct (w_life wk); congruence).
    destruct B as [[Hn ->]|[[_ Hs]|[a [Hs _]]]]; [|rewrite Hno in Hs; discriminate..].
    cbn [filter snd]. destruct (steps i ev) eqn:Es; [destruct (Hn (steps_of _ _ Es))|]. exact (IH _ _ _ _ _ H N eq_refl Hc).
  Qed.
End Fair.

Lemma fuel_size wk : (fuel wk <= 3 * length (w_flights wk) + 2)%nat.
Proof.
  unfold fuel, load. destruct (w_life wk); [|lia..].
  assert (K : forall l, (list_sum (map weight l) <= 3 * length l)%nat).
  { induction l as [|x l IH]; [cbn; lia|]. cbn [map length]. change (list_sum (?a :: ?b)) with (a + list_sum b)%nat. assert (weight x <= 3)%nat by (unfold weight; destruct (snd x); lia). lia. }
  specialize (K (w_flights wk)). destruct (w_open wk); lia.
Qed.
