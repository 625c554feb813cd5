(** Lemmas about jobs that are due in a program on in-memory backends: they are taken. *)
From Coq Require Import Lia Permutation.
From Verif Require Import Base Chrono Types Query Memory MemSpec MemProofs MemHist2 MemNotify MemConc MemConcSpec MemConcProofs MemConcThms MemWake
  Codec Builder Runner RunnerSpec WorkerProofs Ticker Pruner ApiSpec ApiProofs App AppSpec AppProofs AppEnd World WorldSpec WorldProofs WorldInv WorldThms WorldLive WorldWork FairSpec WorldFair.

(** Flights of a worker that takes nothing. *)
Definition takes (a : worker_event) : Prop := match a with WTake _ | WFetch _ | WYield => True | _ => False end.
Lemma in_set_flight n ph k : forall l, In k (map fst (set_flight n ph l)) -> In k (map fst l).
Proof.
  induction l as [|[q r] l IH]; cbn [set_flight]; [auto|]. destruct (Nat.eqb q n).
  - destruct ph; cbn; auto.
  - cbn. intros [->|H]; auto.
Qed.
Lemma flights_shrink D M (c : codec D M) fns show limit w a w' : worker_step c fns show limit w a = Some w' -> ~ takes a ->
  incl (map fst (w_flights w')) (map fst (w_flights w)).
Proof.
  intros H Ha. unfold worker_step in H. destruct (w_life w); try discriminate.
  assert (P : forall n ph obs, incl (map fst (w_flights (progress n ph obs w))) (map fst (w_flights w))).
  { intros n ph obs k. cbn [progress w_flights]. apply in_set_flight. }
  assert (P2 : forall n ph obs ph' obs', incl (map fst (w_flights (progress n ph obs (progress n ph' obs' w)))) (map fst (w_flights w))).
  { intros n ph obs ph' obs' k. cbn [progress w_flights]. intro K. eapply in_set_flight, in_set_flight. exact K. }
  destruct a as [m|m| | | | |n|n n1 n2 o|n r|]; try (destruct (Ha Logic.I)).
  - destruct (w_transit w); [discriminate|]. destruct (may_poll limit w); [|discriminate]. injection H as <-. intros k [].
  - injection H as <-. apply incl_refl.
  - destruct (_ && _); [|discriminate]. injection H as <-. apply incl_refl.
  - destruct (flight_of n (w_flights w)) as [[[j|er]|x|op]|]; try discriminate.
    + destruct (begin_job c fns j); injection H as <-; try apply P. intros k [].
    + injection H as <-. apply P.
  - destruct (flight_of n (w_flights w)) as [[m|x|op]|]; try discriminate.
    destruct o, (x_timeout x); try discriminate; destruct (report show n1 n2 x _); injection H as <-; try apply P2; intros k [].
  - destruct (flight_of n (w_flights w)) as [[m|x|op]|]; try discriminate. destruct r; injection H as <-; try apply P; intros k [].
  - destruct (w_open w); [discriminate|]. destruct (w_flights w); [|discriminate]. injection H as <-. apply incl_refl.
Qed.

(** A worker that is at work and has not been told to stop keeps its stream. *)
Lemma open_run D M (c : codec D M) fns show limit : forall es w w', worker_run c fns show limit w es = Some w' ->
  (w_life w = Working -> w_cancelled w = false -> w_open w = true) -> w_life w' = Working -> w_cancelled w' = false -> w_open w' = true.
Proof.
  induction es as [|a es IH]; intros w w' H; cbn [worker_run] in H; [injection H as <-; auto|].
  destruct (worker_step c fns show limit w a) as [w1|] eqn:E; [|discriminate]. intro Hw. apply (IH _ _ H).
  clear IH H. unfold worker_step in E. destruct (w_life w) eqn:El; try discriminate. specialize (Hw eq_refl).
  destruct a as [m|m| | | | |n|n n1 n2 o|n r|].
  - destruct (w_transit w); [discriminate|]. destruct (may_poll limit w); [|discriminate]. injection E as <-. cbn. auto.
  - destruct (w_transit w); [discriminate|]. destruct (may_poll limit w); [|discriminate]. injection E as <-. cbn. auto.
  - destruct (w_transit w); [|discriminate]. destruct (may_poll limit w); [|discriminate]. injection E as <-. cbn. auto.
  - destruct (w_transit w); [discriminate|]. destruct (may_poll limit w); [|discriminate]. injection E as <-. cbn. discriminate.
  - injection E as <-. cbn. discriminate.
  - destruct (w_open w), (w_cancelled w); cbn [andb] in E; try discriminate. destruct (below_limit _ _); [|discriminate]. injection E as <-. cbn. discriminate.
  - destruct (flight_of n (w_flights w)) as [[[j|er]|x|op]|]; try discriminate.
    + destruct (begin_job c fns j); injection E as <-; cbn; auto; discriminate.
    + injection E as <-. cbn. auto.
  - destruct (flight_of n (w_flights w)) as [[m|x|op]|]; try discriminate.
    destruct o, (x_timeout x); try discriminate; destruct (report show n1 n2 x _); injection E as <-; cbn; auto; discriminate.
  - destruct (flight_of n (w_flights w)) as [[m|x|op]|]; try discriminate. destruct r; injection E as <-; cbn; auto; discriminate.
  - destruct (w_open w); [discriminate|]. destruct (w_flights w); [|discriminate]. injection E as <-. cbn. discriminate.
Qed.

(** A step of something else leaves a stream alone. *)
Lemma conc_keeps p l s k ph : nth_error (c_streams s) k = Some ph -> (forall now, l <> LStream k now) -> l <> LRecv k ->
  nth_error (c_streams (fst (conc_step p s l))) k = Some ph.
Proof.
  intros H H1 H2. destruct l as [o|i now|ex|k' now|k']; cbn [conc_step].
  - destruct o; exact H.
  - destruct (nth_error (c_calls s) i) as [c|]; [|exact H]. destruct (call_step p i now (c_mem s) c) as [[m' c'] ev]. exact H.
  - cbn. rewrite nth_error_app1; [exact H|eapply nth_lt; exact H].
  - destruct (nth_error (c_streams s) k') as [ph'|]; [|exact H]. destruct (nth_error (m_subs (c_mem s)) k') as [sb|]; [|exact H].
    destruct (stream_step p k' now (c_mem s) sb ph') as [[m' ph''] ev]. cbn [fst c_streams]. rewrite nth_set_nth_other; [exact H|]. intros ->. exact (H1 now eq_refl).
  - destruct (nth_error (c_streams s) k') as [[| | | |t rd sl d| |]|]; try exact H. destruct (nth_error (m_subs (c_mem s)) k') as [sb|]; [|exact H].
    destruct (sub_queue sb); [exact H|]. cbn [fst c_streams]. rewrite nth_set_nth_other; [exact H|]. intros ->. exact (H2 eq_refl).
Qed.
Lemma run_keeps p k ph : forall ls s, nth_error (c_streams s) k = Some ph -> (forall l, In l ls -> (forall now, l <> LStream k now) /\ l <> LRecv k) ->
  nth_error (c_streams (conc_run p s ls)) k = Some ph.
Proof.
  induction ls as [|l ls IH]; intros s H Hl; cbn [conc_run]; [exact H|]. apply IH; [|intros l' Hl'; apply Hl; right; exact Hl'].
  destruct (Hl l (or_introl eq_refl)) as [A B]. apply conc_keeps; assumption.
Qed.

(** How far a stream is from loading, once the clock is past [T] and a job scheduled by then waits. *)
Definition rk (T : time) (ph : sphase) : nat :=
  match ph with
  | SDead => 7
  | SGot (Some t) => if t <=? T then 2 else 6
  | SGot None => 6
  | SSelect _ _ _ => 5
  | SWait _ _ _ _ | SYield _ => 4
  | SCheck => 3
  | SLoad _ _ _ => 1
  end.

Section Due.
  Context {Schedule Zone : Type}.
  Variable utc : Zone.
  Variable upcoming : Schedule -> Zone -> time -> option time.
  Variable show : Z -> string.
  Variable hash : forall e : executor, xe_data e -> Z.
  Variable p : profile.
  Notation world := (world Schedule Zone).
  Notation tsk := (task Schedule Zone).
  Notation vev := (world_event Schedule Zone).
  Notation aev := (app_event Schedule Zone).
  Notation wstep e := (worker_step (xe_codec e) (xe_fns e) show (ex_max_concurrency (xe_consts e))).
  Notation onp := (on_process utc upcoming show).
  Notation ons := (on_store (Schedule := Schedule) (Zone := Zone) p).
  Notation vstep := (world_step utc upcoming show hash p).
  Notation vrun := (world_run utc upcoming show hash p).
  Notation vhist := (vhist utc upcoming show hash p).

  (** * Nothing is ever in transit *)
  Definition no_fetch (a : aev) : Prop := match a with AWorker _ (WFetch _) => False | _ => True end.
  Definition settled (t : tsk) : Prop := match ta_body t with BWorker _ wk => w_transit wk = None | _ => True end.
  Lemma transit_step D M (c : codec D M) fns limit w a w' : worker_step c fns show limit w a = Some w' -> (forall m, a <> WFetch m) ->
    w_transit w = None -> w_transit w' = None.
  Proof.
    intros H Ha Hw. unfold worker_step in H. destruct (w_life w); try discriminate. destruct a as [m|m| | | | |n|n n1 n2 o|n r|].
    - destruct (w_transit w); [discriminate|]. destruct (may_poll limit w); [|discriminate]. injection H as <-. reflexivity.
    - destruct (Ha m eq_refl).
    - rewrite Hw in H. discriminate.
    - destruct (w_transit w); [discriminate|]. destruct (may_poll limit w); [|discriminate]. injection H as <-. reflexivity.
    - injection H as <-. exact Hw.
    - destruct (_ && _); [|discriminate]. injection H as <-. reflexivity.
    - destruct (flight_of n (w_flights w)) as [[[j|er]|x|op]|]; try discriminate.
      + destruct (begin_job c fns j); injection H as <-; cbn; auto.
      + injection H as <-. cbn. auto.
    - destruct (flight_of n (w_flights w)) as [[m|x|op]|]; try discriminate.
      destruct o, (x_timeout x); try discriminate; destruct (report show n1 n2 x _); injection H as <-; cbn; auto.
    - destruct (flight_of n (w_flights w)) as [[m|x|op]|]; try discriminate. destruct r; injection H as <-; cbn; auto.
    - destruct (w_open w); [discriminate|]. destruct (w_flights w); [|discriminate]. injection H as <-. reflexivity.
  Qed.
  Lemma told_settled h t : settled t -> settled (App.told show h t).
  Proof.
    intro H. unfold App.told. destruct (Nat.eqb (ta_token t) h); [|exact H]. unfold settled in *.
    destruct (ta_body t) as [e wk| |] eqn:Eb; [|rewrite Eb; exact Logic.I..].
    destruct (wstep e wk WCancel) as [wk'|] eqn:E; cbn [ta_body]; [|rewrite ?Eb; exact H].
    eapply transit_step; [exact E|discriminate|exact H].
  Qed.
  Lemma settled_run : forall pes s rs, app_run utc upcoming show process_init pes = Some (s, rs) -> (forall x, In x pes -> no_fetch (snd x)) ->
    forall t, In t (pr_tasks s) -> settled t.
  Proof.
    induction pes as [|[now ev] pes IH] using rev_ind; intros s rs H Hn t Ht.
    - cbn in H. injection H as <- _. destruct Ht.
    - destruct (run_app_split utc upcoming show _ _ _ _ _ H) as [s1 [rs1 [rs2 [H1 [H2 _]]]]].
      specialize (IH s1 rs1 H1 ltac:(intros x Hx; apply Hn, in_or_app; auto)).
      cbn [app_run] in H2. destruct (app_step utc upcoming show now s1 ev) as [[s2 r]|] eqn:E; [|discriminate]. injection H2 as <- _.
      pose proof (Hn (now, ev) ltac:(apply in_or_app; right; left; reflexivity)) as Hev. cbn [snd] in Hev.
      destruct (step_shape utc upcoming show _ _ _ _ _ E) as [b _ Et|h r0 g new _ _ _ _ Et Hnew|h r0 _ _ _ _ Et|h r0 sl _ _ _ Et|i t0 t' Hi _ _ Et Hs]; rewrite Et in Ht.
      + auto.
      + apply in_app_or in Ht. destruct Ht as [Ht|Ht]; [auto|]. destruct (Hnew t Ht) as [_ [_ [_ K]]]. unfold settled. destruct (ta_body t); [subst; reflexivity|exact Logic.I..].
      + apply in_map_iff in Ht. destruct Ht as [t0 [<- Ht]]. apply told_settled, IH, Ht.
      + auto.
      + apply in_set_nth in Ht. destruct Ht as [->|Ht]; [|auto]. pose proof (IH t0 (nth_error_In _ _ Hi)) as K.
        destruct Hs as [[a [-> Hs]]|[a [-> Hs]]].
        * unfold worker_task_step in Hs. unfold settled in *. destruct (ta_body t0) as [e wk| |] eqn:Eb; [|destruct a; discriminate..].
          destruct (wstep e wk a) as [wk'|] eqn:Ew; [|destruct a; discriminate].
          assert (w_transit wk' = None) by (eapply transit_step; [exact Ew|intros m ->; exact Hev|exact K]).
          destruct a; try discriminate; injection Hs as <-; cbn [ta_body]; assumption.
        * unfold tick_task_step in Hs. unfold settled. destruct (ta_body t0) as [e wk|e sc z d tk|sc cfg tk].
          all: destruct a; try (match type of Hs with match ?x with _ => _ end = _ => destruct x end; try discriminate);
            try (match type of Hs with match ?x with _ => _ end = _ => destruct x end; try discriminate); try discriminate; injection Hs as <-; exact Logic.I.
  Qed.
  Lemma events_app l l' : process_events (Schedule := Schedule) (Zone := Zone) (l ++ l') = process_events l ++ process_events l'.
  Proof. apply flat_map_app. Qed.
  Lemma step_no_fetch now w ev w' : vstep now w ev = Some w' -> (forall x, In x (process_events (wd_log w)) -> no_fetch (snd x)) ->
    forall x, In x (process_events (wd_log w')) -> no_fetch (snd x).
  Proof.
    intros H Hw x Hx. destruct (events_thm utc upcoming show hash p _ _ _ _ H) as [added [E K]]. rewrite E, events_app in Hx.
    apply in_app_or in Hx. destruct Hx as [Hx|Hx]; [auto|].
    destruct ev as [|a|b o|b i|i|i|i|i n|i n n1 n2 o|i n|i|i c0 c1|i c|i|i c|i c].
    - destruct K as [-> _]. destruct Hx.
    - destruct K as [K _]. rewrite K in Hx. destruct Hx as [<-|[]]. cbn [snd].
      destruct a; try exact Logic.I. discriminate H.
    - subst added. destruct Hx.
    - subst added. destruct Hx.
    - destruct K as [t [k [s [_ [_ [_ ->]]]]]]. destruct (nth_error (c_streams _) k) as [[| | | | |[j|er|]|]|]; cbn in Hx; try destruct Hx as [<-|[]]; try destruct Hx; exact Logic.I.
    - destruct K as [t [k [_ [_ ->]]]]. destruct Hx.
    - subst added. destruct Hx as [<-|[]]; exact Logic.I.
    - subst added. destruct Hx as [<-|[]]; exact Logic.I.
    - rewrite K in Hx. destruct Hx as [<-|[]]; exact Logic.I.
    - destruct K as [r ->]. destruct Hx as [<-|[]]; exact Logic.I.
    - subst added. destruct Hx as [<-|[]]; exact Logic.I.
    - subst added. destruct Hx as [<-|[]]; exact Logic.I.
    - rewrite K in Hx. destruct Hx as [<-|[]]; exact Logic.I.
    - subst added. destruct Hx as [<-|[]]; exact Logic.I.
    - destruct K as [r ->]. destruct Hx as [<-|[]]; exact Logic.I.
    - subst added. destruct Hx as [<-|[]]; exact Logic.I.
  Qed.
  Lemma run_no_fetch : forall es w w', vrun w es = Some w' -> (forall x, In x (process_events (wd_log w)) -> no_fetch (snd x)) ->
    forall x, In x (process_events (wd_log w')) -> no_fetch (snd x).
  Proof.
    induction es as [|[now ev] es IH]; intros w w' H Hw; cbn [world_run] in H; [injection H as <-; exact Hw|].
    destruct (vstep now w ev) as [w1|] eqn:E; [|discriminate]. apply (IH _ _ H). exact (step_no_fetch _ _ _ _ E Hw).
  Qed.
  Lemma settled_thm es w i t e wk : vrun world_init es = Some w -> nth_error (pr_tasks (wd_process w)) i = Some t -> ta_body t = BWorker e wk ->
    w_transit wk = None /\ (w_life wk = Working -> w_cancelled wk = false -> w_open wk = true).
  Proof.
    intros H Ht Eb. destruct (reach_link utc upcoming show hash p es w H) as [[[rs K] _ _ _ _] _]. split.
    - pose proof (settled_run _ _ _ K) as S. specialize (S ltac:(apply (run_no_fetch es _ _ H); intros x []) t (nth_error_In _ _ Ht)).
      unfold settled in S. rewrite Eb in S. exact S.
    - pose proof (i_ok _ _ _ _ _ (run_inv utc upcoming show _ _ _ K) t (nth_error_In _ _ Ht)) as Hok. unfold task_ok in Hok. rewrite Eb in Hok.
      destruct Hok as [wes [Hr _]]. eapply open_run; [exact Hr|]. reflexivity.
  Qed.

  (** * One step *)
  Lemma streams_step now w ev w' : vstep now w ev = Some w' -> exists l, wd_streams w' = wd_streams w ++ l.
  Proof.
    intro H.
    assert (Hp : forall a (w w' : world), onp now a w = Some w' -> wd_streams w' = wd_streams w).
    { intros a w0 w1. unfold on_process. destruct (app_step _ _ _ _ _ _) as [[s r]|]; [|discriminate]. intro K. injection K as <-. reflexivity. }
    assert (Hs : forall b l (w w' : world), ons now b l w = Some w' -> wd_streams w' = wd_streams w).
    { intros b l w0 w1. unfold on_store. destruct (nth_error _ _); [|discriminate]. intro K. injection K as <-. reflexivity. }
    assert (Ha : forall i n b l (w w' : world), ask_all p now i n b l w = Some w' -> wd_streams w' = wd_streams w).
    { intros i n b l. induction l as [|o l IH]; intros w0 w1 E; cbn [ask_all] in E; [congruence|].
      destruct (ask_for p now i n b o w0) as [w2|] eqn:E2; [|discriminate]. rewrite (IH _ _ E). unfold ask_for in E2.
      destruct (nth_error _ _); [|discriminate]. destruct (ons now b (LCall o) w0) as [w3|] eqn:E3; [|discriminate]. injection E2 as <-. exact (Hs _ _ _ _ E3). }
    assert (Hc : forall l (w w' : world), connect_all p now l w = Some w' -> exists l', wd_streams w' = wd_streams w ++ l').
    { induction l as [|t l IH]; intros w0 w1 E; cbn [connect_all] in E; [injection E as <-; exists []; symmetry; apply app_nil_r|].
      destruct (connect p now t w0) as [w2|] eqn:E2; [|discriminate]. destruct (IH _ _ E) as [l' ->].
      assert (exists x, wd_streams w2 = wd_streams w0 ++ [x]) as [x ->]; [|exists (x :: l'); now rewrite <- app_assoc].
      unfold connect in E2. destruct (ta_body t); [|injection E2 as <-; eexists; reflexivity..].
      destruct (nth_error _ _); [|discriminate]. destruct (ons now _ _ w0) as [w4|] eqn:E3; [|discriminate]. injection E2 as <-. cbn [wd_streams].
      rewrite (Hs _ _ _ _ E3). eexists. reflexivity. }
    assert (Same : wd_streams w' = wd_streams w -> exists l, wd_streams w' = wd_streams w ++ l) by (intros ->; exists []; symmetry; apply app_nil_r).
    destruct ev as [|a|b o|b i|i|i|i|i n|i n n1 n2 o|i n|i|i c0 c1|i c|i|i c|i c]; cbn [world_step] in H;
      try (apply Same; eapply Hp; exact H); try (apply Same; eapply Hs; exact H).
    - injection H as <-. apply Same. reflexivity.
    - unfold world_app in H.
      assert (G : forall ev, match onp now ev w with
        | Some w' => connect_all p now (skipn (length (pr_tasks (wd_process w))) (pr_tasks (wd_process w'))) w'
        | None => None end = Some w' -> exists l, wd_streams w' = wd_streams w ++ l).
      { intros a0 K. destruct (onp now a0 w) as [w1|] eqn:E; [|discriminate]. destruct (Hc _ _ _ K) as [l ->]. rewrite (Hp _ _ _ E). eauto. }
      destruct a; try discriminate; try (apply (G _ H)). destruct (Nat.ltb _ _); [|discriminate]. apply Same. eapply Hp. exact H.
    - apply Same. unfold world_poll in H. destruct (nth_error (pr_tasks (wd_process w)) i) as [t|]; [|discriminate].
      destruct (nth_error (wd_streams w) i) as [[k|]|]; try discriminate. destruct (ta_body t); try discriminate.
      destruct (polls e w0); [|discriminate]. destruct (ons now (ta_backend t) (LStream k now) w) as [w1|] eqn:E; [|discriminate].
      rewrite <- (Hs _ _ _ _ E). destruct (stream_at (ta_backend t) k w1) as [[| | | | |[j|err|]|]|];
        try (injection H as <-; reflexivity); eapply Hp; exact H.
    - apply Same. unfold world_recv in H. destruct (nth_error (pr_tasks (wd_process w)) i) as [t|]; [|discriminate].
      destruct (nth_error (wd_streams w) i) as [[k|]|]; try discriminate. destruct (ta_body t); try discriminate.
      destruct (polls e w0); [|discriminate]. eapply Hs. exact H.
    - apply Same. unfold world_end in H. destruct (onp now (AWorker i (WEnd n n1 n2 o)) w) as [w1|] eqn:E; [|discriminate].
      rewrite <- (Hp _ _ _ E). destruct (nth_error (pr_tasks (wd_process w1)) i) as [t|]; [|discriminate].
      destruct (ta_body t); try (injection H as <-; reflexivity).
      destruct (flight_of n (w_flights w0)) as [[m|x|op]|]; try (injection H as <-; reflexivity). exact (Ha _ _ _ _ _ _ (ask_one p _ _ _ _ _ _ _ H)).
    - apply Same. unfold world_answer in H. destruct (replies i n w) as [|[[| | | | |[ | r| |]]|] [|]]; try discriminate. eapply Hp. exact H.
    - apply Same. unfold world_wake in H. destruct (onp now (ATick i (Wake c)) w) as [w1|] eqn:E; [|discriminate].
      rewrite <- (Hp _ _ _ E). destruct (nth_error (pr_tasks (wd_process w1)) i) as [t|]; [|discriminate].
      destruct (firings (ta_body t)) as [|[c' next] rest]; [injection H as <-; reflexivity|]. exact (Ha _ _ _ _ _ _ H).
    - apply Same. unfold world_acted in H. destruct (nth_error (pr_tasks (wd_process w)) i) as [t|]; [|discriminate].
      destruct (existsb _ _); [eapply Hp; exact H|]. destruct (forallb _ _); [|discriminate]. eapply Hp; exact H.
  Qed.

  (** Worker [i], its stream and its store. *)
  Record duty (w : world) (i b tk : nat) (e : executor) (wk : worker) (k : nat) (s : cstate) (sb : sub) (ph : sphase) : Prop := {
    du_task : nth_error (pr_tasks (wd_process w)) i = Some (mk_task b tk (BWorker e wk));
    du_life : w_life wk = Working;
    du_told : w_cancelled wk = false;
    du_stream : nth_error (wd_streams w) i = Some (Some k);
    du_store : nth_error (wd_stores w) b = Some s;
    du_sub : nth_error (m_subs (c_mem s)) k = Some sb;
    du_ex : sub_executor sb = ex_name (xe_consts e);
    du_phase : nth_error (c_streams s) k = Some ph;
    du_sound : m_poisoned (c_mem s) = false
  }.
  Lemma duty_at es w i b e : vrun world_init es = Some w -> on_duty w i b e -> sound w b ->
    exists tk wk k s sb ph, duty w i b tk e wk k s sb ph.
  Proof.
    intros H [tk [wk [Ht [El Ec]]]] [s [Hs Hp]].
    destruct (stream_thm utc upcoming show hash p es w i _ e wk H Ht eq_refl) as [k [s' [sb [E1 [E2 [E3 [E4 [E5 _]]]]]]]].
    cbn [ta_backend] in E2. assert (s' = s) as -> by congruence.
    destruct (nth_error (c_streams s) k) as [ph|] eqn:Ek; [|apply nth_error_None in Ek; lia].
    exists tk, wk, k, s, sb, ph. constructor; assumption.
  Qed.
  Lemma duty_polls es w i b tk e wk k s sb ph : vrun world_init es = Some w -> duty w i b tk e wk k s sb ph ->
    polls e wk = below_limit (ex_max_concurrency (xe_consts e)) (length (w_flights wk)).
  Proof.
    intros H Hd. destruct Hd as [D1 D2 D3 _ _ _ _ _ _]. destruct (settled_thm es w i _ e wk H D1 eq_refl) as [S1 S2].
    unfold polls, may_poll. rewrite D2, S1, D3, (S2 D2 D3). reflexivity.
  Qed.

  Definition odb (T : time) (ex : string) (j : job) : bool := waitingb j && String.eqb (j_executor j) ex && (j_scheduled_at j <=? T).
  Lemma odb_iff T ex j : odb T ex j = true <-> waiting j /\ j_executor j = ex /\ j_scheduled_at j <= T.
  Proof. unfold odb. rewrite !andb_true_iff, waitingb_iff, String.eqb_eq, Z.leb_le. tauto. Qed.

  (** A poll. *)
  Lemma poll_step T now w w' es i b tk e wk k s sb ph : vrun world_init es = Some w -> duty w i b tk e wk k s sb ph ->
    vstep now w (VPoll i) = Some w' -> T <= now -> overdue T (ex_name (xe_consts e)) b w <> [] -> on_duty w' i b e ->
    (exists j, j_scheduled_at j <= T /\ j_executor j = ex_name (xe_consts e)
       /\ nth_error (pr_tasks (wd_process w')) i = Some (mk_task b tk (BWorker e (push_flight (MJob j) wk)))
       /\ (length (overdue T (ex_name (xe_consts e)) b w') < length (overdue T (ex_name (xe_consts e)) b w))%nat)
    \/ (exists ph', duty w' i b tk e wk k (mk_c (c_mem s) (c_calls s) (set_nth k ph' (c_streams s))) sb ph'
         /\ ((rk T ph' < rk T ph)%nat \/ (ph' = ph /\ exists t rd sl d, ph = SWait t rd sl d /\ now < sl + d))).
  Proof.
    intros H Hd Hs HT Ho Hon. destruct Hd as [D1 D2 D3 D4 D5 D6 D7 D8 D9].
    assert (exists kj0, In kj0 (m_jobs (c_mem s)) /\ odb T (ex_name (xe_consts e)) (kj_job kj0) = true) as [kj0 [Hin Hod]].
    { unfold overdue in Ho. rewrite D5 in Ho. change (filter _ (jobs_of (c_mem s))) with (filter (odb T (ex_name (xe_consts e))) (jobs_of (c_mem s))) in Ho.
      destruct (filter (odb T (ex_name (xe_consts e))) (jobs_of (c_mem s))) as [|j0 l] eqn:Ef; [congruence|].
      assert (In j0 (filter (odb T (ex_name (xe_consts e))) (jobs_of (c_mem s)))) as K by (rewrite Ef; left; reflexivity).
      apply filter_In in K. destruct K as [K1 K2]. apply in_map_iff in K1. destruct K1 as [kj0 [<- K1]]. eauto. }
    apply odb_iff in Hod. destruct Hod as [Hw [Hex Hsch]].
    cbn [world_step] in Hs. unfold world_poll in Hs. rewrite D1, D4 in Hs. cbn [ta_body ta_backend] in Hs.
    destruct (polls e wk) eqn:Ep; [|discriminate]. unfold on_store in Hs. rewrite D5 in Hs.
    unfold stream_at in Hs. cbn [wd_stores] in Hs. rewrite (nth_set_same _ _ _ _ D5) in Hs.
    cbn [conc_step] in Hs. rewrite D8, D6 in Hs.
    assert (Quiet : forall ph', stream_step p k now (c_mem s) sb ph = (c_mem s, ph', []) ->
              match ph' with SYield _ | SDead => False | _ => True end ->
              duty w' i b tk e wk k (mk_c (c_mem s) (c_calls s) (set_nth k ph' (c_streams s))) sb ph').
    { intros ph' E Hq. rewrite E in Hs. cbn [fst c_streams] in Hs. rewrite (nth_set_same _ _ _ _ D8) in Hs.
      assert (w' = mk_world (wd_process w) (set_nth b (mk_c (c_mem s) (c_calls s) (set_nth k ph' (c_streams s))) (wd_stores w)) (wd_streams w) (wd_asks w)
                     (wd_log w ++ [(now, OnStore b (LStream k now))])) as -> by (destruct ph'; try destruct Hq; congruence).
      constructor; cbn [wd_process wd_streams wd_stores c_mem c_streams]; try assumption; [exact (nth_set_same _ _ _ _ D5)|exact (nth_set_same _ _ _ _ D8)]. }
    destruct ph as [|t|t rd d|t rd d|t rd sl d|r|].
    - right. destruct (next_available (sub_executor sb) (c_mem s)) as [ta|er|] eqn:En.
      2,3: exfalso; unfold next_available, mem_query, matching_jobs in En; rewrite D9 in En; discriminate En.
      destruct (next_available_spec _ _ _ En) as [N _]. destruct (N kj0 Hin Hw) as [ts [-> Hts]]; [congruence|].
      exists (SGot (Some ts)). split; [apply Quiet; [cbn [stream_step]; rewrite En; reflexivity|exact Logic.I]|].
      left. cbn [rk]. replace (ts <=? T) with true by (symmetry; apply Z.leb_le; lia). lia.
    - right. exists (if stream_delay t now <=? delta then SLoad t now (stream_delay t now) else SSelect t now (stream_delay t now)).
      split; [apply Quiet; [reflexivity|destruct (_ <=? _); exact Logic.I]|]. left.
      destruct (stream_delay t now <=? delta) eqn:Ed; cbn [rk]; destruct t as [ts|]; try (destruct (ts <=? T) eqn:Et); try lia.
      exfalso. apply Z.leb_gt in Ed. apply Z.leb_le in Et. revert Ed. unfold stream_delay, delta, default_delay, to_std, dt_diff, ns_per_s, ns_per_ms.
      destruct (ts - now <? 0) eqn:E; [apply Z.ltb_lt in E|apply Z.ltb_ge in E]; lia.
    - pose proof (mem_load_spec p now (c_mem s) (sub_executor sb) D9) as L. cbn [stream_step] in Hs.
      destruct (mem_load p now (c_mem s) (sub_executor sb)) as [m' [[j'|]|err|]] eqn:El.
      + left. destruct L as [pre [kj [post [L1 [L2 [L3 [L4 [L5 L6]]]]]]]]. cbn [fst c_streams] in Hs. rewrite (nth_set_same _ _ _ _ D8) in Hs.
        unfold on_process in Hs. cbn [app_step wd_process] in Hs. rewrite D1 in Hs. cbn [worker_task_step ta_body ta_backend ta_token] in Hs.
        assert (Hp : wstep e wk (WTake (MJob j')) = Some (push_flight (MJob j') wk)).
        { unfold polls in Ep. unfold worker_step. destruct (w_life wk); try discriminate. destruct (w_transit wk); [discriminate|]. rewrite Ep. reflexivity. }
        rewrite Hp in Hs. cbn [put_task] in Hs. injection Hs as <-.
        assert (Hx : waiting (kj_job kj) /\ j_executor (kj_job kj) = ex_name (xe_consts e) /\ j_scheduled_at (kj_job kj) <= T).
        { destruct L2 as [A [B C]]. split; [exact B|]. split; [congruence|].
          assert (K : ~ strictly_before (kj_job kj0) (kj_job kj)).
          { rewrite L1 in Hin. apply in_app_or in Hin.
            assert (Hd0 : due now (sub_executor sb) (kj_job kj0)) by (unfold due; split; [congruence|]; split; [exact Hw|lia]).
            destruct Hin as [Hin|[<-|Hin]].
            - specialize (L5 _ Hin Hd0). unfold strictly_before in *. lia.
            - unfold strictly_before. lia.
            - exact (L6 _ Hin Hd0). }
          unfold strictly_before in K. lia. }
        destruct Hx as [X1 [X2 X3]].
        assert (Ej : j_scheduled_at j' = j_scheduled_at (kj_job kj) /\ j_executor j' = j_executor (kj_job kj) /\ waitingb j' = false).
        { unfold job_executing in L3. destruct (i32_arith p _); [|discriminate]. injection L3 as <-. auto. }
        destruct Ej as [Ej1 [Ej2 Ej3]]. exists j'. split; [rewrite Ej1; exact X3|]. split; [rewrite Ej2; exact X2|].
        split; [cbn [wd_process pr_tasks]; exact (nth_set_same _ _ _ _ D1)|].
        unfold overdue. cbn [wd_stores]. rewrite (nth_set_same _ _ _ _ D5), D5. cbn [c_mem]. rewrite L4. unfold jobs_of. cbn [m_jobs set_jobs]. rewrite L1.
        rewrite !map_app, !filter_app, !app_length. cbn [map filter kj_job]. rewrite Ej3. cbn [andb].
        replace (waitingb (kj_job kj) && String.eqb (j_executor (kj_job kj)) (ex_name (xe_consts e)) && (j_scheduled_at (kj_job kj) <=? T)) with true; [cbn [length]; lia|].
        symmetry. apply odb_iff. auto.
      + exfalso. destruct L as [_ L]. apply (L kj0 Hin). unfold due. split; [congruence|]. split; [exact Hw|lia].
      + destruct L.
      + exfalso. cbn [fst c_streams] in Hs. rewrite (nth_set_same _ _ _ _ D8) in Hs.
        unfold on_process in Hs. cbn [app_step wd_process] in Hs. rewrite D1 in Hs. cbn [worker_task_step ta_body ta_backend ta_token] in Hs.
        destruct (wstep e wk WPanic) as [wk'|] eqn:Ew; [|discriminate]. cbn [put_task] in Hs. injection Hs as <-.
        destruct Hon as [tk' [wk2 [Q1 [Q2 _]]]]. cbn [wd_process pr_tasks] in Q1. rewrite (nth_set_same _ _ _ _ D1) in Q1. injection Q1 as _ ->.
        unfold worker_step in Ew. rewrite D2 in Ew. destruct (w_transit wk); [discriminate|]. destruct (may_poll _ wk); [|discriminate]. injection Ew as <-. discriminate Q2.
    - right. exists (SWait t rd now d). split; [apply Quiet; [reflexivity|exact Logic.I]|]. left. cbn. lia.
    - right. destruct (sl + d <=? now) eqn:E.
      + exists SCheck. split; [apply Quiet; [cbn [stream_step]; rewrite E; reflexivity|exact Logic.I]|]. left. cbn. lia.
      + exists (SWait t rd sl d). split; [apply Quiet; [cbn [stream_step]; rewrite E; reflexivity|exact Logic.I]|]. right. split; [reflexivity|].
        exists t, rd, sl, d. split; [reflexivity|]. apply Z.leb_gt in E. exact E.
    - right. exists SCheck. split; [apply Quiet; [reflexivity|exact Logic.I]|]. left. cbn. lia.
    - exfalso. cbn [stream_step fst c_streams] in Hs. rewrite (nth_set_same _ _ _ _ D8) in Hs.
      unfold on_process in Hs. cbn [app_step wd_process] in Hs. rewrite D1 in Hs. cbn [worker_task_step ta_body ta_backend ta_token] in Hs.
      destruct (wstep e wk WPanic) as [wk'|] eqn:Ew; [|discriminate]. cbn [put_task] in Hs. injection Hs as <-.
      destruct Hon as [tk' [wk2 [Q1 [Q2 _]]]]. cbn [wd_process pr_tasks] in Q1. rewrite (nth_set_same _ _ _ _ D1) in Q1. injection Q1 as _ ->.
      unfold worker_step in Ew. rewrite D2 in Ew. destruct (w_transit wk); [discriminate|]. destruct (may_poll _ wk); [|discriminate]. injection Ew as <-. discriminate Q2.
  Qed.

  (** Streams move by polls and messages only. *)
  Definition moves_stream (k : nat) (l : label) : Prop := match l with LStream k' _ | LRecv k' => k' = k | _ => False end.
  Lemma log_step now w ev w' : vstep now w ev = Some w' -> exists added, wd_log w' = wd_log w ++ added
    /\ forall x b k l, In x added -> snd x = OnStore b l -> moves_stream k l ->
       exists i t, (ev = VPoll i \/ ev = VRecv i) /\ nth_error (pr_tasks (wd_process w)) i = Some t /\ ta_backend t = b /\ nth_error (wd_streams w) i = Some (Some k).
  Proof.
    intro H.
    set (quiet := fun added : list (time * action Schedule Zone) => forall x b k l, In x added -> snd x = OnStore b l -> ~ moves_stream k l).
    assert (Q : forall added, wd_log w' = wd_log w ++ added -> quiet added -> exists added, wd_log w' = wd_log w ++ added
      /\ forall x b k l, In x added -> snd x = OnStore b l -> moves_stream k l ->
         exists i t, (ev = VPoll i \/ ev = VRecv i) /\ nth_error (pr_tasks (wd_process w)) i = Some t /\ ta_backend t = b /\ nth_error (wd_streams w) i = Some (Some k)).
    { intros added E Hq. exists added. split; [exact E|]. intros x b k l K1 K2 K3. destruct (Hq x b k l K1 K2 K3). }
    assert (Q1 : forall now a, quiet [(now, OnProcess a)]) by (intros n0 a x b k l [<-|[]]; discriminate).
    assert (Qa : forall l l', quiet l -> quiet l' -> quiet (l ++ l')).
    { intros l l' A B x b k lb K. apply in_app_or in K. destruct K as [K|K]; [exact (A x b k lb K)|exact (B x b k lb K)]. }
    assert (Ha : forall i n b l (w w' : world), ask_all p now i n b l w = Some w' -> exists ad, wd_log w' = wd_log w ++ ad /\ quiet ad).
    { intros i n b l. induction l as [|o l IH]; intros w0 w1 E; cbn [ask_all] in E; [injection E as <-; exists []; split; [symmetry; apply app_nil_r|intros x b0 k lb []]|].
      destruct (ask_for p now i n b o w0) as [w2|] eqn:E2; [|discriminate]. destruct (IH _ _ E) as [ad [-> A]]. unfold ask_for in E2.
      destruct (nth_error _ _); [|discriminate]. destruct (ons now b (LCall o) w0) as [w3|] eqn:E3; [|discriminate]. injection E2 as <-. cbn [wd_log].
      rewrite (ons_log _ _ _ _ _ _ E3), <- app_assoc. eexists. split; [reflexivity|]. apply Qa; [|exact A].
      intros x b0 k lb [<-|[]] K. cbn in K. injection K as _ <-. auto. }
    assert (Hc : forall l (w w' : world), connect_all p now l w = Some w' -> exists ad, wd_log w' = wd_log w ++ ad /\ quiet ad).
    { induction l as [|t l IH]; intros w0 w1 E; cbn [connect_all] in E; [injection E as <-; exists []; split; [symmetry; apply app_nil_r|intros x b0 k lb []]|].
      destruct (connect p now t w0) as [w2|] eqn:E2; [|discriminate]. destruct (IH _ _ E) as [ad [-> A]].
      unfold connect in E2. destruct (ta_body t); [|injection E2 as <-; exists ad; auto..].
      destruct (nth_error _ _); [|discriminate]. destruct (ons now _ _ w0) as [w4|] eqn:E3; [|discriminate]. injection E2 as <-. cbn [wd_log].
      rewrite (ons_log _ _ _ _ _ _ E3), <- app_assoc. eexists. split; [reflexivity|]. apply Qa; [|exact A].
      intros x b0 k lb [<-|[]] K. cbn in K. injection K as _ <-. auto. }
    assert (P1 : forall a, onp now a w = Some w' -> exists added, wd_log w' = wd_log w ++ added
      /\ forall x b k l, In x added -> snd x = OnStore b l -> moves_stream k l ->
         exists i t, (ev = VPoll i \/ ev = VRecv i) /\ nth_error (pr_tasks (wd_process w)) i = Some t /\ ta_backend t = b /\ nth_error (wd_streams w) i = Some (Some k)).
    { intros a E. eapply Q; [exact (onp_log _ _ _ _ _ _ _ E)|apply Q1]. }
    destruct ev as [|a|b o|b i|i|i|i|i n|i n n1 n2 o|i n|i|i c0 c1|i c|i|i c|i c]; cbn [world_step] in H; try (eapply P1; exact H).
    - injection H as <-. apply (Q []); [symmetry; apply app_nil_r|intros x b k l []].
    - unfold world_app in H.
      assert (G : forall ev, match onp now ev w with
        | Some w' => connect_all p now (skipn (length (pr_tasks (wd_process w))) (pr_tasks (wd_process w'))) w'
        | None => None end = Some w' -> exists ad, wd_log w' = wd_log w ++ ad /\ quiet ad).
      { intros a0 K. destruct (onp now a0 w) as [w1|] eqn:E; [|discriminate]. destruct (Hc _ _ _ K) as [l [-> A]]. rewrite (onp_log _ _ _ _ _ _ _ E), <- app_assoc.
        eexists. split; [reflexivity|]. apply Qa; [apply Q1|exact A]. }
      destruct a; try discriminate; try (destruct (G _ H) as [ad [G1 G2]]; exact (Q ad G1 G2)). destruct (Nat.ltb _ _); [|discriminate]. eapply P1. exact H.
    - eapply Q; [exact (ons_log _ _ _ _ _ _ H)|]. intros x b0 k lb [<-|[]] K. cbn in K. injection K as _ <-. auto.
    - eapply Q; [exact (ons_log _ _ _ _ _ _ H)|]. intros x b0 k lb [<-|[]] K. cbn in K. injection K as _ <-. auto.
    - unfold world_poll in H. destruct (nth_error (pr_tasks (wd_process w)) i) as [t|] eqn:Et; [|discriminate].
      destruct (nth_error (wd_streams w) i) as [[k|]|] eqn:Es; try discriminate. destruct (ta_body t); try discriminate.
      destruct (polls e w0); [|discriminate]. destruct (ons now (ta_backend t) (LStream k now) w) as [w1|] eqn:E; [|discriminate].
      assert (exists ad, wd_log w' = wd_log w1 ++ ad /\ quiet ad) as [ad [E2 A]].
      { destruct (stream_at (ta_backend t) k w1) as [[| | | | |[j|err|]|]|];
          try (injection H as <-; exists []; split; [symmetry; apply app_nil_r|intros x b0 k0 lb []]);
          (eexists; split; [exact (onp_log _ _ _ _ _ _ _ H)|apply Q1]). }
      rewrite E2, (ons_log _ _ _ _ _ _ E), <- app_assoc. eexists. split; [reflexivity|]. intros x b k' l [<-|Hx] K1 K2; [|destruct (A x b k' l Hx K1 K2)].
      cbn in K1. injection K1 as <- <-. cbn in K2. subst k'. exists i, t. auto.
    - unfold world_recv in H. destruct (nth_error (pr_tasks (wd_process w)) i) as [t|] eqn:Et; [|discriminate].
      destruct (nth_error (wd_streams w) i) as [[k|]|] eqn:Es; try discriminate. destruct (ta_body t); try discriminate.
      destruct (polls e w0); [|discriminate]. rewrite (ons_log _ _ _ _ _ _ H). eexists. split; [reflexivity|]. intros x b k' l [<-|[]] K1 K2.
      cbn in K1. injection K1 as <- <-. cbn in K2. subst k'. exists i, t. auto.
    - unfold world_end in H. destruct (onp now (AWorker i (WEnd n n1 n2 o)) w) as [w1|] eqn:E; [|discriminate].
      pose proof (onp_log _ _ _ _ _ _ _ E) as El. destruct (nth_error (pr_tasks (wd_process w1)) i) as [t|]; [|discriminate].
      destruct (ta_body t); try (injection H as <-; eapply Q; [exact El|apply Q1]).
      destruct (flight_of n (w_flights w0)) as [[m|x|op]|]; try (injection H as <-; eapply Q; [exact El|apply Q1]).
      destruct (Ha _ _ _ _ _ _ (ask_one p _ _ _ _ _ _ _ H)) as [ad [E2 A]]. rewrite El, <- app_assoc in E2. eapply Q; [exact E2|]. apply Qa; [apply Q1|exact A].
    - unfold world_answer in H. destruct (replies i n w) as [|[[| | | | |[ | r| |]]|] [|]]; try discriminate. eapply P1. exact H.
    - unfold world_wake in H. destruct (onp now (ATick i (Wake c)) w) as [w1|] eqn:E; [|discriminate].
      pose proof (onp_log _ _ _ _ _ _ _ E) as El. destruct (nth_error (pr_tasks (wd_process w1)) i) as [t|]; [|discriminate].
      destruct (firings (ta_body t)) as [|[c' next] rest]; [injection H as <-; eapply Q; [exact El|apply Q1]|].
      destruct (Ha _ _ _ _ _ _ H) as [ad [E2 A]]. rewrite El, <- app_assoc in E2. eapply Q; [exact E2|]. apply Qa; [apply Q1|exact A].
    - unfold world_acted in H. destruct (nth_error (pr_tasks (wd_process w)) i) as [t|]; [|discriminate].
      destruct (existsb _ _); [eapply P1; exact H|]. destruct (forallb _ _); [|discriminate]. eapply P1; exact H.
  Qed.
  Lemma labels_app' b (l l' : list (time * action Schedule Zone)) : labels b (l ++ l') = labels b l ++ labels b l'.
  Proof. apply flat_map_app. Qed.

  (** A step that is no poll of worker [i]. *)
  Lemma other_step T now w ev w' es i b tk e wk k s sb ph : vrun world_init es = Some w -> duty w i b tk e wk k s sb ph ->
    vstep now w ev = Some w' -> ev <> VPoll i -> on_duty w' i b e -> sound w' b ->
    exists wk' s' sb' ph', duty w' i b tk e wk' k s' sb' ph' /\ incl (map fst (w_flights wk')) (map fst (w_flights wk))
      /\ (ph' = ph \/ (rk T ph' < rk T ph)%nat).
  Proof.
    intros H Hd Hs Hne Hon Hso.
    assert (H' : vrun world_init (es ++ [(now, ev)]) = Some w') by (rewrite vrun_app, H; cbn [world_run]; rewrite Hs; reflexivity).
    destruct (duty_at _ w' i b e H' Hon Hso) as [tk2 [wk2 [k2 [s2 [sb2 [ph2 D2]]]]]]. pose proof (du_task _ _ _ _ _ _ _ _ _ _ Hd) as D1.
    destruct (worker_becomes utc upcoming show hash p _ _ _ _ _ _ _ _ Hs D1 eq_refl) as [wk' [N B]]. cbn [ta_backend ta_token] in N.
    pose proof (du_task _ _ _ _ _ _ _ _ _ _ D2) as N2. rewrite N in N2. injection N2 as <- <-.
    destruct (streams_step _ _ _ _ Hs) as [ls Els].
    assert (k2 = k) as ->.
    { pose proof (du_stream _ _ _ _ _ _ _ _ _ _ D2) as A. rewrite Els, nth_error_app1 in A by (eapply nth_lt; exact (du_stream _ _ _ _ _ _ _ _ _ _ Hd)).
      rewrite (du_stream _ _ _ _ _ _ _ _ _ _ Hd) in A. congruence. }
    exists wk', s2, sb2, ph2. split; [exact D2|]. split.
    { destruct B as [[_ ->]|[[_ B]|[a [B [_ Hdo]]]]]; [apply incl_refl|eapply flights_shrink; [exact B|intros []]|].
      eapply flights_shrink; [exact B|]. destruct ev, a; cbn in Hdo |- *; try tauto. subst. congruence. }
    destruct Hd as [_ _ _ D4 D5 D6 D7 D8 D9]. destruct D2 as [_ _ _ E4 E5 E6 E7 E8 E9].
    assert (Ev : ev = VRecv i \/ ev <> VRecv i) by (destruct ev as [| | | | |i'| | | | | | | | | |]; try (right; discriminate); destruct (Nat.eq_dec i' i); [left; congruence|right; congruence]).
    destruct Ev as [->|Hnr].
    - cbn [world_step] in Hs. unfold world_recv in Hs. rewrite D1, D4 in Hs. cbn [ta_body ta_backend] in Hs. destruct (polls e wk); [|discriminate].
      unfold on_store in Hs. rewrite D5 in Hs. injection Hs as <-. cbn [wd_stores] in E5. rewrite (nth_set_same _ _ _ _ D5) in E5. injection E5 as <-.
      cbn [conc_step] in E8. rewrite D8, D6 in E8. destruct ph as [|t|t rd d|t rd d|t rd sl d|r|]; cbn [fst] in E8; try (left; congruence).
      destruct (sub_queue sb); cbn [fst c_streams] in E8; [left; congruence|]. rewrite (nth_set_same _ _ _ _ D8) in E8. injection E8 as <-. right. cbn. lia.
    - left. destruct (log_step _ _ _ _ Hs) as [ad [El K]].
      pose proof (store_thm utc upcoming show hash p _ _ _ _ H D5) as R1. pose proof (store_thm utc upcoming show hash p _ _ _ _ H' E5) as R2.
      rewrite El, labels_app', conc_run_app, <- R1 in R2.
      rewrite R2, (run_keeps p k ph (labels b ad) s D8) in E8; [congruence|].
      intros l Hl. assert (Hm : ~ moves_stream k l).
      { intro Hm. unfold labels in Hl. apply in_flat_map in Hl. destruct Hl as [x [Hx Hl]]. destruct (snd x) as [a|b' l'] eqn:Ex; [destruct Hl|].
        destruct (Nat.eqb_spec b' b) as [->|]; [|destruct Hl]. destruct Hl as [->|[]].
        destruct (K x b k l Hx Ex Hm) as [i' [t' [Hev [Ht' [Hb' Hk']]]]].
        destruct (stream_thm utc upcoming show hash p es w i _ e wk H D1 eq_refl) as [k0 [_ [_ [F1 [_ [_ [_ [_ [_ [_ F]]]]]]]]]].
        assert (k0 = k) as -> by congruence. cbn [ta_backend] in F. specialize (F i' t' Ht' Hb' Hk'). subst i'. destruct Hev; [apply Hne|apply Hnr]; assumption. }
      split; [intros n0 ->|intros ->]; apply Hm; reflexivity.
  Qed.

  (** * Histories *)
  (** At [q] the worker takes a job that is overdue. *)
  Definition took (T : time) (st : nat -> world) (i b : nat) (e : executor) (q : nat) : Prop :=
    exists tk wk wk' j, nth_error (pr_tasks (wd_process (st q))) i = Some (mk_task b tk (BWorker e wk))
      /\ nth_error (pr_tasks (wd_process (st (S q)))) i = Some (mk_task b tk (BWorker e wk')) /\ jobs_taken wk' = jobs_taken wk ++ [j]
      /\ j_scheduled_at j <= T /\ j_executor j = ex_name (xe_consts e)
      /\ (length (overdue T (ex_name (xe_consts e)) b (st (S q))) < length (overdue T (ex_name (xe_consts e)) b (st q)))%nat.
  Lemma taken_push j wk : jobs_taken (push_flight (MJob j) wk) = jobs_taken wk ++ [j].
  Proof. reflexivity. Qed.

  Theorem due_taken T st ev i b e n : vhist st ev -> calls_go_on st ev -> (forall q, just vstep (step_with i q) st ev) ->
    just vstep (eq (VPoll i)) st ev -> time_passes ev ->
    (forall m, (n <= m)%nat -> on_duty (st m) i b e) -> (forall m, (n <= m)%nat -> sound (st m) b) ->
    (forall l, ex_max_concurrency (xe_consts e) = Some l -> 0 <= l) ->
    forall k, (n <= k)%nat -> exists m, (k <= m)%nat /\ (overdue T (ex_name (xe_consts e)) b (st m) = [] \/ took T st i b e m).
  Proof.
    intros H Hg Hj Hp Ht Hon Hso Hlim k0 Lk0. set (ex := ex_name (xe_consts e)).
    destruct (Ht T) as [NT HT]. set (base := Nat.max k0 NT).
    set (out := exists m, (k0 <= m)%nat /\ (overdue T ex b (st m) = [] \/ took T st i b e m)).
    pose proof (vreach _ _ _ _ _ st ev H) as Hr.
    assert (Step : forall m tk wk k s sb ph, (base <= m)%nat -> duty (st m) i b tk e wk k s sb ph ->
              out \/ exists wk' s' sb' ph', duty (st (S m)) i b tk e wk' k s' sb' ph' /\ incl (map fst (w_flights wk')) (map fst (w_flights wk))
                /\ (ph' = ph \/ (rk T ph' < rk T ph)%nat)
                /\ (snd (ev m) = VPoll i -> (rk T ph' < rk T ph)%nat \/ exists t rd sl d, ph = SWait t rd sl d /\ fst (ev m) < sl + d)).
    { intros m tk wk k s sb ph L D. pose proof (proj2 H m) as Hs.
      destruct (list_eq_dec Nat.eq_dec [length (overdue T ex b (st m))] [0%nat]) as [E|E].
      - left. exists m. split; [unfold base in L; lia|]. left. injection E as E. apply length_zero_iff_nil. exact E.
      - assert (Ho : overdue T ex b (st m) <> []) by (intro K; apply E; rewrite K; reflexivity).
        assert (Ev : snd (ev m) = VPoll i \/ snd (ev m) <> VPoll i).
        { destruct (snd (ev m)) as [| | | |i'| | | | | | | | | | |]; try (right; discriminate). destruct (Nat.eq_dec i' i); [left; congruence|right; congruence]. }
        destruct Ev as [Ev|Ev].
        + assert (Hs' : vstep (fst (ev m)) (st m) (VPoll i) = Some (st (S m))) by (rewrite <- Ev; exact Hs).
          destruct (poll_step T _ _ _ _ _ _ _ _ _ _ _ _ _ (Hr m) D Hs') as [[j [J1 [J2 [J3 J4]]]]|[ph' [D' R]]].
          * apply HT. unfold base in L. lia.
          * exact Ho.
          * apply Hon. unfold base in L. lia.
          * left. exists m. split; [unfold base in L; lia|]. right. exists tk, wk, (push_flight (MJob j) wk), j.
            split; [exact (du_task _ _ _ _ _ _ _ _ _ _ D)|]. split; [exact J3|]. split; [apply taken_push|]. auto.
          * right. eexists. eexists. eexists. eexists. split; [exact D'|]. split; [apply incl_refl|]. destruct R as [R|[-> [t [rd [sl [d [R1 R2]]]]]]].
            -- split; [right; exact R|intros _; left; exact R].
            -- split; [left; reflexivity|]. intros _. right. exists t, rd, sl, d. auto.
        + right. destruct (other_step T _ _ _ _ _ _ _ _ _ _ _ _ _ _ (Hr m) D Hs Ev) as [wk' [s' [sb' [ph' [D' [I1 I2]]]]]].
          * apply Hon. unfold base in L. lia.
          * apply Hso. unfold base in L. lia.
          * exists wk', s', sb', ph'. split; [exact D'|]. split; [exact I1|]. split; [exact I2|]. intro K. destruct (Ev K). }
    assert (Many : forall m0 m tk wk k s sb ph, (base <= m0)%nat -> (m0 <= m)%nat -> duty (st m0) i b tk e wk k s sb ph ->
              out \/ exists wk' s' sb' ph', duty (st m) i b tk e wk' k s' sb' ph' /\ incl (map fst (w_flights wk')) (map fst (w_flights wk))
                /\ (ph' = ph \/ (rk T ph' < rk T ph)%nat)).
    { intros m0 m tk wk k s sb ph L0 L D. induction L as [|m L IH].
      - right. exists wk, s, sb, ph. split; [exact D|]. split; [apply incl_refl|]. left. reflexivity.
      - destruct IH as [IH|[wk1 [s1 [sb1 [ph1 [D1 [I1 R1]]]]]]]; [left; exact IH|].
        destruct (Step m tk wk1 k s1 sb1 ph1 ltac:(lia) D1) as [O|[wk2 [s2 [sb2 [ph2 [D2 [I2 [R2 _]]]]]]]]; [left; exact O|].
        right. exists wk2, s2, sb2, ph2. split; [exact D2|]. split; [eapply incl_tran; eassumption|].
        destruct R1 as [-> |R1], R2 as [-> |R2]; auto; right; lia. }
    assert (W : forall m tk wk k s sb ph, duty (st m) i b tk e wk k s sb ph -> NoDup (map fst (w_flights wk)) /\ forall q, In q (map fst (w_flights wk)) -> (q < w_next wk)%nat).
    { intros m tk wk k s sb ph D. pose proof (task_winv utc upcoming show hash p _ _ _ _ _ (Hr m) (nth_error_In _ _ (du_task _ _ _ _ _ _ _ _ _ _ D)) eq_refl) as [W1 [W2 _]]. auto. }
    (* room *)
    assert (Room : forall z m0 tk wk k s sb ph, (base <= m0)%nat -> duty (st m0) i b tk e wk k s sb ph -> (length (w_flights wk) <= z)%nat ->
              out \/ exists m tk wk' k s' sb' ph', (m0 <= m)%nat /\ duty (st m) i b tk e wk' k s' sb' ph' /\ polls e wk' = true).
    { induction z as [z IH] using lt_wf_ind. intros m0 tk wk k s sb ph L0 D Lz. destruct (polls e wk) eqn:Ep.
      - right. exists m0, tk, wk, k, s, sb, ph. auto.
      - pose proof Ep as Ep'. rewrite (duty_polls _ _ _ _ _ _ _ _ _ _ _ (Hr m0) D) in Ep. unfold below_limit in Ep.
        destruct (ex_max_concurrency (xe_consts e)) as [l|] eqn:Em; [|discriminate]. specialize (Hlim l eq_refl).
        apply Bool.orb_false_iff in Ep. destruct Ep as [P1 P2]. apply Z.eqb_neq in P1. apply Z.ltb_ge in P2.
        destruct (w_flights wk) as [|[q fl] rest] eqn:Ef; [cbn in P2; lia|].
        destruct (W _ _ _ _ _ _ _ D) as [W1 W2]. rewrite Ef in W1, W2.
        assert (Hq : had i q (st m0)).
        { exists (mk_task b tk (BWorker e wk)), e, wk. split; [exact (du_task _ _ _ _ _ _ _ _ _ _ D)|]. split; [reflexivity|]. apply W2. left. reflexivity. }
        destruct (job_goes utc upcoming show hash p st ev i q H Hg (Hj q) m0 Hq) as [m [Lm Fm]].
        destruct (Many m0 m tk wk k s sb ph L0 Lm D) as [O|[wk' [s' [sb' [ph' [D' [I' _]]]]]]]; [left; exact O|].
        assert (Hgone : ~ In q (map fst (w_flights wk'))).
        { intro K. unfold far in Fm. rewrite (du_task _ _ _ _ _ _ _ _ _ _ D') in Fm. cbn [ta_body] in Fm. unfold afar in Fm. rewrite (du_life _ _ _ _ _ _ _ _ _ _ D') in Fm.
          destruct (flight_of q (w_flights wk')) as [ph0|] eqn:E0; [|apply flight_of_none in E0; exact (E0 K)]. destruct ph0; discriminate Fm. }
        assert (Hlen : (S (length (w_flights wk')) <= length (w_flights wk))%nat).
        { rewrite <- (map_length fst (w_flights wk')), <- (map_length fst (w_flights wk)).
          change (S (length (map fst (w_flights wk')))) with (length (q :: map fst (w_flights wk'))). apply NoDup_incl_length.
          - constructor; [exact Hgone|]. exact (proj1 (W _ _ _ _ _ _ _ D')).
          - intros q' [<-|K]; [rewrite Ef; left; reflexivity|exact (I' _ K)]. }
        rewrite Ef in Hlen. destruct (IH (length (w_flights wk')) ltac:(cbn [length] in *; lia) m tk wk' k s' sb' ph' ltac:(lia) D' (le_n _)) as [O|[m2 [tk2 [wk2 [k2 [s2 [sb2 [ph2 [L2 [D2 P3]]]]]]]]]];
          [left; exact O|]. right. exists m2, tk2, wk2, k2, s2, sb2, ph2. split; [lia|]. auto. }
    (* a poll *)
    assert (Keeps : forall m m' tk wk k s sb ph wk' s' sb' ph', duty (st m) i b tk e wk k s sb ph -> duty (st m') i b tk e wk' k s' sb' ph' ->
              incl (map fst (w_flights wk')) (map fst (w_flights wk)) -> polls e wk = true -> polls e wk' = true).
    { intros m m' tk wk k s sb ph wk' s' sb' ph' D D' I' P. rewrite (duty_polls _ _ _ _ _ _ _ _ _ _ _ (Hr m) D) in P. rewrite (duty_polls _ _ _ _ _ _ _ _ _ _ _ (Hr m') D').
      assert (L : (length (w_flights wk') <= length (w_flights wk))%nat).
      { rewrite <- (map_length fst (w_flights wk')), <- (map_length fst (w_flights wk)). apply NoDup_incl_length; [exact (proj1 (W _ _ _ _ _ _ _ D'))|exact I']. }
      unfold below_limit in *. destruct (ex_max_concurrency (xe_consts e)) as [l|]; [|reflexivity].
      apply Bool.orb_true_iff in P. apply Bool.orb_true_iff. destruct P as [P|P]; [left; exact P|right]. apply Z.ltb_lt in P. apply Z.ltb_lt. lia. }
    assert (Can : forall m tk wk k s sb ph, duty (st m) i b tk e wk k s sb ph -> polls e wk = true -> possible vstep (eq (VPoll i)) (st m)).
    { intros m tk wk k s sb ph D P. destruct D as [D1 D2 D3 D4 D5 D6 D7 D8 D9].
      assert (exists w', vstep 0 (st m) (VPoll i) = Some w') as [w' E]; [|exists 0, (VPoll i), w'; auto].
      cbn [world_step]. unfold world_poll. rewrite D1, D4. cbn [ta_body ta_backend]. rewrite P. unfold on_store at 1. rewrite D5.
      assert (Q : forall a (w0 : world), wd_process w0 = wd_process (st m) -> match a with WTake _ | WPanic => True | _ => False end -> exists w', onp 0 (AWorker i a) w0 = Some w').
      { intros a w0 E Ha. unfold on_process. cbn [app_step]. rewrite E, D1. unfold worker_task_step. cbn [ta_body].
        assert (exists wk', wstep e wk a = Some wk') as [wk' ->].
        { unfold polls in P. unfold worker_step. destruct (w_life wk); try discriminate. destruct (w_transit wk); [discriminate|].
          destruct a; try destruct Ha; rewrite P; eexists; reflexivity. }
        destruct a; try destruct Ha; eexists; reflexivity. }
      match goal with |- exists w', match ?x with _ => _ end = _ => destruct x as [[| | | | |[j|er|]|]|] end; try (eexists; reflexivity);
        (apply Q; [reflexivity|exact Logic.I]). }
    assert (Poll : forall m0 tk wk k s sb ph, (base <= m0)%nat -> duty (st m0) i b tk e wk k s sb ph -> polls e wk = true ->
              out \/ exists m wk' s' sb' ph', (m0 <= m)%nat /\ duty (st m) i b tk e wk' k s' sb' ph' /\ polls e wk' = true /\ (rk T ph' < rk T ph)%nat).
    { intros m0 tk wk k s sb ph L0 D P.
      assert (exists N, forall m, (N <= m)%nat -> forall t rd sl d, ph = SWait t rd sl d -> sl + d <= fst (ev m)) as [N HN].
      { destruct ph as [|t|t rd d|t rd d|t rd sl d|r|]; try (exists 0%nat; intros; discriminate).
        destruct (Ht (sl + d)) as [N HN]. exists N. intros m Lm t' rd' sl' d' E. injection E as _ _ <- <-. apply HN, Lm. }
      destruct (Hp (Nat.max m0 N)) as [m [Lm Dm]].
      destruct (Many m0 m tk wk k s sb ph L0 ltac:(lia) D) as [O|[wk1 [s1 [sb1 [ph1 [D1 [I1 R1]]]]]]]; [left; exact O|].
      pose proof (Keeps _ _ _ _ _ _ _ _ _ _ _ _ D D1 I1 P) as P1.
      destruct R1 as [-> |R1]; [|right; exists m, wk1, s1, sb1, ph1; split; [lia|]; auto].
      destruct Dm as [Dm|Dm]; [|destruct (Dm (Can _ _ _ _ _ _ _ D1 P1))].
      destruct (Step m tk wk1 k s1 sb1 ph ltac:(lia) D1) as [O|[wk2 [s2 [sb2 [ph2 [D2 [I2 [_ R2]]]]]]]]; [left; exact O|].
      pose proof (Keeps _ _ _ _ _ _ _ _ _ _ _ _ D1 D2 I2 P1) as P2.
      destruct (R2 (eq_sym Dm)) as [R3|[t [rd [sl [d [E1 E2]]]]]].
      - right. exists (S m), wk2, s2, sb2, ph2. split; [lia|]. auto.
      - exfalso. specialize (HN m ltac:(lia) t rd sl d E1). lia. }
    assert (Down : forall z m0 tk wk k s sb ph, (base <= m0)%nat -> duty (st m0) i b tk e wk k s sb ph -> polls e wk = true -> (rk T ph <= z)%nat -> out).
    { induction z as [z IH] using lt_wf_ind. intros m0 tk wk k s sb ph L0 D P Lz.
      destruct (Poll m0 tk wk k s sb ph L0 D P) as [O|[m [wk' [s' [sb' [ph' [L [D' [P' R]]]]]]]]]; [exact O|].
      eapply (IH (rk T ph')); [lia| |exact D'|exact P'|lia]. lia. }
    assert (Lb : (n <= base)%nat) by (unfold base; lia).
    destruct (duty_at _ _ _ _ _ (Hr base) (Hon base Lb) (Hso base Lb)) as [tk [wk [k [s [sb [ph D]]]]]].
    destruct (Room _ base tk wk k s sb ph (le_n _) D (le_n _)) as [O|[m [tk' [wk' [k' [s' [sb' [ph' [L [D' P']]]]]]]]]]; [exact O|].
    exact (Down _ m tk' wk' k' s' sb' ph' L D' P' (le_n _)).
  Qed.

  Theorem due_cleared T st ev i b e n : vhist st ev -> calls_go_on st ev -> (forall q, just vstep (step_with i q) st ev) ->
    just vstep (eq (VPoll i)) st ev -> time_passes ev ->
    (forall m, (n <= m)%nat -> on_duty (st m) i b e) -> (forall m, (n <= m)%nat -> sound (st m) b) ->
    (forall l, ex_max_concurrency (xe_consts e) = Some l -> 0 <= l) ->
    (forall m, (n <= m)%nat -> (length (overdue T (ex_name (xe_consts e)) b (st (S m))) <= length (overdue T (ex_name (xe_consts e)) b (st m)))%nat) ->
    exists m, (n <= m)%nat /\ forall m', (m <= m')%nat -> overdue T (ex_name (xe_consts e)) b (st m') = [].
  Proof.
    intros H Hg Hj Hp Ht Hon Hso Hlim Hdec. set (mu := fun d => length (overdue T (ex_name (xe_consts e)) b (st (n + d)%nat))).
    assert (Mono : forall d d', (d <= d')%nat -> (mu d' <= mu d)%nat).
    { intros d d' L. induction L as [|d' L IH]; [lia|]. unfold mu in *. replace (n + S d')%nat with (S (n + d')) by lia. specialize (Hdec (n + d')%nat ltac:(lia)). lia. }
    destruct (comes_down mu) with (n := 0%nat) as [d [_ Ed]].
    - intros d Hd. destruct (due_taken T st ev i b e n H Hg Hj Hp Ht Hon Hso Hlim (n + d)%nat ltac:(lia)) as [m [L [K|K]]].
      + exists (m - n)%nat. split; [lia|]. unfold mu at 1. replace (n + (m - n))%nat with m by lia. rewrite K. cbn. lia.
      + destruct K as [tk [wk [wk' [j [_ [_ [_ [_ [_ K]]]]]]]]]. exists (S (m - n)). split; [lia|].
        pose proof (Mono d (m - n)%nat ltac:(lia)) as M. unfold mu in *. replace (n + (m - n))%nat with m in M by lia. replace (n + S (m - n))%nat with (S m) by lia. lia.
    - exists (n + d)%nat. split; [lia|]. intros m' L. apply length_zero_iff_nil. pose proof (Mono d (m' - n)%nat ltac:(lia)) as M. unfold mu in *.
      replace (n + (m' - n))%nat with m' in M by lia. lia.
  Qed.
End Due.
