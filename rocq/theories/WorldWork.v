(** Lemmas about the work a program on in-memory backends can always get done. *)
From Coq Require Import Lia Permutation.
From Verif Require Import Base Chrono Types Query Memory MemSpec MemProofs MemConc MemConcSpec MemConcProofs MemConcThms MemWake
  Codec Builder Runner RunnerSpec WorkerProofs Ticker Pruner ApiProofs App AppSpec AppProofs AppEnd World WorldSpec WorldProofs WorldInv WorldThms WorldOnce WorldLive.

Section Work.
  Context {Schedule Zone : Type}.
  Variable utc : Zone.
  Variable upcoming : Schedule -> Zone -> time -> option time.
  Variable show : Z -> string.
  Variable hash : forall e : executor, xe_data e -> Z.
  Variable p : profile.
  Notation world := (world Schedule Zone).
  Notation tsk := (task Schedule Zone).
  Notation wstep e := (worker_step (xe_codec e) (xe_fns e) show (ex_max_concurrency (xe_consts e))).
  Notation onp := (on_process utc upcoming show).
  Notation ons := (on_store (Schedule := Schedule) (Zone := Zone) p).
  Notation vstep := (world_step utc upcoming show hash p).
  Notation vrun := (world_run utc upcoming show hash p).

  (** Worker [i] may poll its stream [k] of store [b]. *)
  Record ready (w : world) (i b tk : nat) (e : executor) (wk : worker) (k : nat) (s : cstate) : Prop := {
    rd_task : nth_error (pr_tasks (wd_process w)) i = Some (mk_task b tk (BWorker e wk));
    rd_polls : polls e wk = true;
    rd_stream : nth_error (wd_streams w) i = Some (Some k);
    rd_store : nth_error (wd_stores w) b = Some s;
    rd_sub : exists sb, nth_error (m_subs (c_mem s)) k = Some sb /\ sub_executor sb = ex_name (xe_consts e);
    rd_clean : m_poisoned (c_mem s) = false
  }.
  (** Any other store is as before. *)
  Definition elsewhere (b : nat) (w w' : world) : Prop :=
    forall b', b' <> b -> nth_error (wd_stores w') b' = nth_error (wd_stores w) b'.
  Definition late (T : time) (es : list (time * world_event Schedule Zone)) : Prop := Forall (fun x => T <= fst x) es.

  (** A poll gives the worker the job [kj] at position [length pre]. *)
  Definition gives (T : time) (w : world) (i b tk : nat) (e : executor) (wk : worker) (k : nat) (s : cstate) : Prop :=
    exists es' w' now s' pre kj post j',
      vrun w es' = Some w' /\ owns b i es' /\ late T es' /\ T <= now /\ aside i w w' /\ elsewhere b w w'
      /\ wd_asks w' = wd_asks w /\ wd_streams w' = wd_streams w
      /\ nth_error (pr_tasks (wd_process w')) i = Some (mk_task b tk (BWorker e (push_flight (MJob j') wk)))
      /\ nth_error (wd_stores w') b = Some s' /\ c_calls s' = c_calls s
      /\ m_subs (c_mem s') = m_subs (c_mem s) /\ m_poisoned (c_mem s') = false
      /\ m_jobs (c_mem s) = pre ++ kj :: post /\ due now (ex_name (xe_consts e)) (kj_job kj)
      /\ job_executing p now (kj_job kj) = Some j' /\ m_jobs (c_mem s') = pre ++ mk_kjob j' (kj_key kj) :: post
      /\ (forall x, In x (pre ++ post) -> due now (ex_name (xe_consts e)) (kj_job x) -> ~ strictly_before (kj_job x) (kj_job kj)).

  (** A poll that yields nothing. *)
  Lemma quiet_poll T now w i b tk e wk k s ph ph' :
    ready w i b tk e wk k s -> nth_error (c_streams s) k = Some ph ->
    (forall sb, stream_step p k now (c_mem s) sb ph = (c_mem s, ph', []) \/ sub_executor sb <> ex_name (xe_consts e)) ->
    match ph' with SYield _ | SDead => False | _ => True end -> T <= now ->
    (forall w', ready w' i b tk e wk k (mk_c (c_mem s) (c_calls s) (set_nth k ph' (c_streams s))) ->
       gives now w' i b tk e wk k (mk_c (c_mem s) (c_calls s) (set_nth k ph' (c_streams s)))) ->
    gives T w i b tk e wk k s.
  Proof.
    intros R Hk Hs Hq Hn Hnext. destruct R as [R1 R2 R3 R4 [sb [R5 R6]] R7].
    set (s1 := mk_c (c_mem s) (c_calls s) (set_nth k ph' (c_streams s))) in *.
    assert (Es : fst (conc_step p s (LStream k now)) = s1).
    { cbn [conc_step]. rewrite Hk, R5. destruct (Hs sb) as [->|?]; [reflexivity|contradiction]. }
    assert (E1 : exists w1, vstep now w (VPoll i) = Some w1 /\ wd_process w1 = wd_process w /\ wd_stores w1 = set_nth b s1 (wd_stores w)
              /\ wd_streams w1 = wd_streams w /\ wd_asks w1 = wd_asks w).
    { cbn [world_step]. unfold world_poll. rewrite R1, R3. cbn [ta_body ta_backend]. rewrite R2. unfold on_store at 1. rewrite R4, Es.
      unfold stream_at. cbn [wd_stores]. rewrite (nth_set_same _ _ _ _ R4). subst s1. cbn [c_streams]. rewrite (nth_set_same _ _ _ _ Hk).
      destruct ph'; try destruct Hq; eexists; (split; [reflexivity|]); cbn; auto. }
    destruct E1 as [w1 [V [P1 [P2 [P3 P4]]]]].
    assert (Rd : ready w1 i b tk e wk k s1).
    { constructor; try rewrite P1; try rewrite P3; try assumption; [rewrite P2; exact (nth_set_same _ _ _ _ R4)|exists sb; auto]. }
    destruct (Hnext w1 Rd) as [es2 [w2 [nw [s2 [pre [kj [post [j' Q]]]]]]]].
    destruct Q as [Q1 [Q2 [Q3 [Q3' [Q4 [Q5 [Q6 [Q7 Q8]]]]]]]].
    exists ((now, VPoll i) :: es2), w2, nw, s2, pre, kj, post, j'.
    split; [cbn [world_run]; rewrite V; exact Q1|]. split; [constructor; [reflexivity|exact Q2]|].
    split; [constructor; [exact Hn|eapply Forall_impl; [|exact Q3]; cbn; intros; lia]|]. split; [lia|].
    split; [exact (aside_trans utc upcoming _ _ _ _ (aside_same _ _ _ P1) Q4)|].
    split; [intros b' Hb; rewrite Q5, P2 by exact Hb; apply nth_set_nth_other; congruence|].
    split; [congruence|]. split; [congruence|]. exact Q8.
  Qed.

  Lemma give_load T w i b tk e wk k s t rd d kj0 :
    ready w i b tk e wk k s -> nth_error (c_streams s) k = Some (SLoad t rd d) ->
    In kj0 (m_jobs (c_mem s)) -> due T (ex_name (xe_consts e)) (kj_job kj0) ->
    (forall kj, In kj (m_jobs (c_mem s)) -> waiting (kj_job kj) -> j_executor (kj_job kj) = ex_name (xe_consts e) -> job_executing p T (kj_job kj) <> None) ->
    gives T w i b tk e wk k s.
  Proof.
    intros R Hk Hin Hd Hx. destruct R as [R1 R2 R3 R4 [sb [R5 R6]] R7].
    pose proof (mem_load_spec p T (c_mem s) (sub_executor sb) R7) as L. rewrite R6 in *.
    destruct (mem_load p T (c_mem s) (ex_name (xe_consts e))) as [m' [[j'|]|err|]] eqn:El.
    - destruct L as [pre [kj [post [L1 [L2 [L3 [L4 [L5 L6]]]]]]]].
      set (s1 := mk_c m' (c_calls s) (set_nth k (SYield (Ok j')) (c_streams s))).
      assert (Es : fst (conc_step p s (LStream k T)) = s1).
      { cbn [conc_step]. rewrite Hk, R5. cbn [stream_step]. rewrite R6, El. reflexivity. }
      assert (Hp : wstep e wk (WTake (MJob j')) = Some (push_flight (MJob j') wk)).
      { unfold polls in R2. unfold worker_step. destruct (w_life wk); try discriminate. destruct (w_transit wk); [discriminate|]. rewrite R2. reflexivity. }
      assert (E1 : exists w0, ons T b (LStream k T) w = Some w0 /\ wd_process w0 = wd_process w /\ wd_stores w0 = set_nth b s1 (wd_stores w)
              /\ wd_streams w0 = wd_streams w /\ wd_asks w0 = wd_asks w).
      { unfold on_store. rewrite R4, Es. eexists. split; [reflexivity|]. cbn. auto. }
      destruct E1 as [w0 [E1 [P1 [P2 [P3 P4]]]]].
      destruct (do_worker utc upcoming show T i w0 _ e wk (WTake (MJob j')) _ ltac:(rewrite P1; exact R1) eq_refl Hp ltac:(discriminate)) as [w1 [V1 [V2 [V3 [V4 [V5 V6]]]]]].
      assert (V : vstep T w (VPoll i) = Some w1).
      { cbn [world_step]. unfold world_poll. rewrite R1, R3. cbn [ta_body ta_backend]. rewrite R2, E1. unfold stream_at. rewrite P2, (nth_set_same _ _ _ _ R4).
        subst s1. cbn [c_streams]. rewrite (nth_set_same _ _ _ _ Hk). exact V1. }
      exists [(T, VPoll i)], w1, T, s1, pre, kj, post, j'. split; [cbn [world_run]; rewrite V; reflexivity|].
      split; [repeat constructor|]. split; [constructor; [cbn; lia|constructor]|]. split; [lia|].
      split; [exact (aside_trans utc upcoming _ _ _ _ (aside_same _ _ _ P1) V2)|].
      split; [intros b' Hb; rewrite V4, P2; apply nth_set_nth_other; congruence|].
      split; [congruence|]. split; [congruence|]. split; [exact V3|]. split; [rewrite V4, P2; exact (nth_set_same _ _ _ _ R4)|].
      split; [reflexivity|]. subst m'. split; [reflexivity|]. split; [exact R7|]. split; [exact L1|]. split; [exact L2|]. split; [exact L3|].
      split; [reflexivity|]. intros x Hx' Hdx. apply in_app_or in Hx'. destruct Hx' as [Hx'|Hx']; [|apply L6; assumption].
      specialize (L5 x Hx' Hdx). unfold strictly_before in *. lia.
    - exfalso. destruct L as [_ L]. exact (L kj0 Hin Hd).
    - destruct L.
    - exfalso. destruct L as [_ [k0 [A [B C]]]]. destruct B as [B1 [B2 _]]. exact (Hx k0 A B2 B1 C).
  Qed.

  (** From wherever its stream is, a worker gets a job, if there is one. *)
  Lemma gives_job T w i b tk e wk k s ph kj0 :
    ready w i b tk e wk k s -> nth_error (c_streams s) k = Some ph -> ph <> SDead ->
    In kj0 (m_jobs (c_mem s)) -> waiting (kj_job kj0) -> j_executor (kj_job kj0) = ex_name (xe_consts e) -> j_scheduled_at (kj_job kj0) <= T ->
    (forall kj, In kj (m_jobs (c_mem s)) -> waiting (kj_job kj) -> j_executor (kj_job kj) = ex_name (xe_consts e) -> forall now, job_executing p now (kj_job kj) <> None) ->
    gives T w i b tk e wk k s.
  Proof.
    intros R Hk Hdead Hin Hw Hex Hsch Hx.
    assert (Hdue : forall T', T <= T' -> due T' (ex_name (xe_consts e)) (kj_job kj0)).
    { intros T' HT. unfold due. split; [exact Hex|]. split; [exact Hw|]. lia. }
    assert (Hset : forall (s : cstate) (ph ph' : sphase), nth_error (c_streams s) k = Some ph -> nth_error (set_nth k ph' (c_streams s)) k = Some ph')
      by (intros s0 p0 p1 H0; exact (nth_set_same _ _ _ _ H0)).
    (* any state of the same memory *)
    assert (GL : forall T' w s' t rd d, T <= T' -> ready w i b tk e wk k s' -> c_mem s' = c_mem s -> nth_error (c_streams s') k = Some (SLoad t rd d) -> gives T' w i b tk e wk k s').
    { intros T' w' s' t rd d HT R' Em H'. eapply (give_load T' w' i b tk e wk k s' t rd d kj0); try eassumption; rewrite ?Em; auto. }
    assert (GG : forall T' w s' ts, T <= T' -> ts <= T -> ready w i b tk e wk k s' -> c_mem s' = c_mem s -> nth_error (c_streams s') k = Some (SGot (Some ts)) -> gives T' w i b tk e wk k s').
    { intros T' w' s' ts HT Hts R' Em H'.
      assert (Hdel : stream_delay (Some ts) T' <=? delta = true).
      { unfold stream_delay, delta, default_delay, to_std, dt_diff, ns_per_s, ns_per_ms.
        apply Z.leb_le. destruct (ts - T' <? 0) eqn:E; [apply Z.ltb_lt in E | apply Z.ltb_ge in E]; lia. }
      eapply (quiet_poll T' T' w' i b tk e wk k s' _ (SLoad (Some ts) T' (stream_delay (Some ts) T')) R' H'); [|exact Logic.I|lia|].
      - intro sb. left. cbn [stream_step]. rewrite Hdel. reflexivity.
      - intros w'' R''. eapply GL; [exact HT|exact R''|exact Em|]. cbn [c_streams]. exact (Hset s' _ _ H'). }
    assert (GC : forall T' w s', T <= T' -> ready w i b tk e wk k s' -> c_mem s' = c_mem s -> nth_error (c_streams s') k = Some SCheck -> gives T' w i b tk e wk k s').
    { intros T' w' s' HT R' Em H'.
      assert (Hn : exists ts, next_available (ex_name (xe_consts e)) (c_mem s') = Ok (Some ts) /\ ts <= j_scheduled_at (kj_job kj0)).
      { destruct (next_available (ex_name (xe_consts e)) (c_mem s')) as [t|err|] eqn:Ena.
        2,3: exfalso; unfold next_available, mem_query, matching_jobs in Ena; rewrite (rd_clean _ _ _ _ _ _ _ _ R') in Ena; discriminate Ena.
        destruct (next_available_spec _ _ _ Ena) as [Hn _]. rewrite Em in Hn.
        destruct (Hn kj0 Hin Hw Hex) as [ts [-> Hts]]. eauto. }
      destruct Hn as [ts [Hn Hts]].
      eapply (quiet_poll T' T' w' i b tk e wk k s' _ (SGot (Some ts)) R' H'); [|exact Logic.I|lia|].
      - intro sb. destruct (string_dec (sub_executor sb) (ex_name (xe_consts e))) as [E|E]; [left|right; exact E]. cbn [stream_step]. rewrite E, Hn. reflexivity.
      - intros w'' R''. eapply GG; [exact HT| |exact R''|exact Em|cbn [c_streams]; exact (Hset s' _ _ H')]. lia. }
    assert (GW : forall T' w s' t rd sl d, T <= T' -> ready w i b tk e wk k s' -> c_mem s' = c_mem s -> nth_error (c_streams s') k = Some (SWait t rd sl d) -> gives T' w i b tk e wk k s').
    { intros T' w' s' t rd sl d HT R' Em H'.
      eapply (quiet_poll T' (Z.max T' (sl + d)) w' i b tk e wk k s' _ SCheck R' H'); [|exact Logic.I|lia|].
      - intro sb. left. cbn [stream_step]. replace (sl + d <=? Z.max T' (sl + d)) with true by (symmetry; apply Z.leb_le; lia). reflexivity.
      - intros w'' R''. eapply GC; [|exact R''|exact Em|cbn [c_streams]; exact (Hset s' _ _ H')]. lia. }
    assert (GS : forall T' w s' t rd d, T <= T' -> ready w i b tk e wk k s' -> c_mem s' = c_mem s -> nth_error (c_streams s') k = Some (SSelect t rd d) -> gives T' w i b tk e wk k s').
    { intros T' w' s' t rd d HT R' Em H'.
      eapply (quiet_poll T' T' w' i b tk e wk k s' _ (SWait t rd T' d) R' H'); [|exact Logic.I|lia|].
      - intro sb. left. reflexivity.
      - intros w'' R''. eapply GW; [exact HT|exact R''|exact Em|cbn [c_streams]; exact (Hset s' _ _ H')]. }
    destruct ph as [|t|t rd d|t rd d|t rd sl d|r|].
    - eapply GC; [apply Z.le_refl|exact R|reflexivity|exact Hk].
    - destruct (stream_delay t T <=? delta) eqn:Ed.
      + eapply (quiet_poll T T w i b tk e wk k s _ (SLoad t T (stream_delay t T)) R Hk); [|exact Logic.I|lia|].
        * intro sb. left. cbn [stream_step]. rewrite Ed. reflexivity.
        * intros w'' R''. eapply GL; [apply Z.le_refl|exact R''|reflexivity|cbn [c_streams]; exact (Hset s _ _ Hk)].
      + eapply (quiet_poll T T w i b tk e wk k s _ (SSelect t T (stream_delay t T)) R Hk); [|exact Logic.I|lia|].
        * intro sb. left. cbn [stream_step]. rewrite Ed. reflexivity.
        * intros w'' R''. eapply GS; [apply Z.le_refl|exact R''|reflexivity|cbn [c_streams]; exact (Hset s _ _ Hk)].
    - eapply GL; [apply Z.le_refl|exact R|reflexivity|exact Hk].
    - eapply GS; [apply Z.le_refl|exact R|reflexivity|exact Hk].
    - eapply GW; [apply Z.le_refl|exact R|reflexivity|exact Hk].
    - eapply (quiet_poll T T w i b tk e wk k s _ SCheck R Hk); [|exact Logic.I|lia|].
      + intro sb. left. reflexivity.
      + intros w'' R''. eapply GC; [apply Z.le_refl|exact R''|reflexivity|cbn [c_streams]; exact (Hset s _ _ Hk)].
    - contradiction.
  Qed.

  Lemma ids_thm es w b s : vrun world_init es = Some w -> nth_error (wd_stores w) b = Some s ->
    Z.of_nat (length (filter enqueues_job (c_calls s))) <= 4294967296 -> NoDup (map (fun x => j_id (kj_job x)) (m_jobs (c_mem s))).
  Proof.
    intros H Hs Hn. pose proof (store_thm utc upcoming show hash p es w b s H Hs) as Es.
    assert (Hn' : new_enqueues (labels b (wd_log w)) <= 4294967296).
    { etransitivity; [|exact Hn]. apply Nat2Z.inj_le. apply Nat.eq_le_incl.
      change (length (filter enqueues_job (c_calls s))) with (cnt (fun c => match cl_op c with OpEnqueue _ => true | _ => false end) (c_calls s)).
      rewrite <- (cnt_map (fun o => match o with OpEnqueue _ => true | _ => false end) cl_op), Es, (proj1 (proj2 (store_run p (labels b (wd_log w))))).
      clear. induction (labels b (wd_log w)) as [|l ls IH]; [reflexivity|]. unfold calls_of in *. cbn [filter flat_map]. rewrite cnt_app, <- IH.
      destruct l as [[]| | | |]; reflexivity. }
    destruct (conc_ids_lemma p (labels b (wd_log w)) s (Logic.conj Es Hn')) as [Hd _].
    unfold jobs_of in Hd. rewrite map_map in Hd. exact Hd.
  Qed.

  (** The flight a message was taken with goes and leaves the others as they were. *)
  Lemma set_new n ph ph' l : ~ In n (map fst l) ->
    set_flight n ph' (l ++ [(n, ph)]) = l ++ match ph' with Some q => [(n, q)] | None => [] end.
  Proof.
    induction l as [|[k q] l IH]; intro H.
    - cbn. rewrite Nat.eqb_refl. destruct ph'; reflexivity.
    - cbn [app set_flight]. destruct (Nat.eqb_spec k n) as [->|_]; [destruct H; left; reflexivity|]. rewrite IH; [reflexivity|]. intro Hi. apply H. right. exact Hi.
  Qed.
  Lemma flight_new n ph l : ~ In n (map fst l) -> flight_of n (l ++ [(n, ph)]) = Some ph.
  Proof.
    induction l as [|[k q] l IH]; intro H; cbn [app flight_of].
    - rewrite Nat.eqb_refl. reflexivity.
    - destruct (Nat.eqb_spec k n) as [->|_]; [destruct H; left; reflexivity|]. apply IH. intro Hi. apply H. right. exact Hi.
  Qed.

  (** A job of executor [ex] whose time has come. *)
  Definition pending_job (T : time) (ex : string) (x : kjob) : Prop :=
    waiting (kj_job x) /\ j_executor (kj_job x) = ex /\ j_scheduled_at (kj_job x) <= T.
  (** It is run and completed. *)
  Definition done_after (T : time) (x y : kjob) : Prop :=
    exists t1 t2, T <= t1 <= t2 /\ y = mk_kjob (after_complete t2 (after_hand_out t1 (kj_job x))) (kj_key x).
  Definition can_run (e : executor) (m : mem) : Prop :=
    forall x, In x (m_jobs m) -> waiting (kj_job x) -> j_executor (kj_job x) = ex_name (xe_consts e) ->
    forall now, runnable (xe_codec e) (xe_fns e) (after_hand_out now (kj_job x)).

  Lemma runs_fit e now j : runnable (xe_codec e) (xe_fns e) (after_hand_out now j) -> -2147483648 <= j_attempt j < 2147483647.
  Proof.
    intro H. apply (proj2 (begin_runnable _ _ show _)) in H. destruct H as [x H]. apply (begin_spawned _ _ show) in H. destruct H as [t [_ [_ [_ [_ [_ [H _]]]]]]].
    cbn in H. lia.
  Qed.

  Lemma set_at_end {A} (x y : A) l : set_nth (length l) y (l ++ [x]) = l ++ [y].
  Proof. induction l as [|z l IH]; cbn; [reflexivity|now rewrite IH]. Qed.

  Lemma serve_one T es w i b tk e wk k s kj0 : vrun world_init es = Some w -> ready w i b tk e wk k s ->
    Z.of_nat (length (filter enqueues_job (c_calls s))) <= 4294967296 ->
    In kj0 (m_jobs (c_mem s)) -> pending_job T (ex_name (xe_consts e)) kj0 -> can_run e (c_mem s) ->
    exists es' w' s' wk' pre kj kj' post, vrun w es' = Some w' /\ owns b i es' /\ late T es' /\ aside i w w' /\ elsewhere b w w'
      /\ ready w' i b tk e wk' k s' /\ w_flights wk' = w_flights wk
      /\ c_calls s' = c_calls s ++ [mk_call (OpComplete (j_id (kj_job kj))) (PcDone (RUnit (Ok tt))) None]
      /\ m_jobs (c_mem s) = pre ++ kj :: post /\ pending_job T (ex_name (xe_consts e)) kj
      /\ m_jobs (c_mem s') = pre ++ kj' :: post /\ done_after T kj kj'.
  Proof.
    intros H R Hn Hin [Hw [Hex Hsch]] Hrun. pose proof R as [R1 R2 R3 R4 [sb [R5 R6]] R7].
    assert (Hph : exists ph, nth_error (c_streams s) k = Some ph /\ ph <> SDead).
    { destruct (stream_thm utc upcoming show hash p es w i _ e wk H R1 eq_refl) as [k' [s0 [sb' [A1 [A2 [_ [_ [A5 _]]]]]]]]. cbn [ta_backend] in A2.
      assert (k' = k) as -> by congruence. assert (s0 = s) as -> by congruence.
      destruct (nth_error (c_streams s) k) as [ph|] eqn:Ep; [|apply nth_error_None in Ep; lia]. exists ph. split; [reflexivity|].
      intros ->. pose proof (store_thm utc upcoming show hash p es w b s H R4) as Es. rewrite Es in Ep, R7. apply dead_poisoned in Ep. congruence. }
    destruct Hph as [ph [Hk Hd]].
    destruct (gives_job T w i b tk e wk k s ph kj0 R Hk Hd Hin Hw Hex Hsch) as [es1 [w1 [now [s1 [pre [kj [post [j' G]]]]]]]].
    { intros x Hx Hwx Hxe n En. apply job_executing_none in En. destruct En as [_ En]. apply En. eapply runs_fit. exact (Hrun x Hx Hwx Hxe n). }
    destruct G as [G1 [G2 [G3 [G4 [G5 [G6 [G7 [G8 [G9 [G10 [G11 [G12 [G13 [G14 [G15 [G16 [G17 G18]]]]]]]]]]]]]]]]].
    assert (Hkj : In kj (m_jobs (c_mem s))) by (rewrite G14; apply in_elt).
    destruct G15 as [D1 [D2 D3]].
    pose proof (Hrun kj Hkj D2 D1 now) as Hr. pose proof (job_executing_ok p now _ _ (runs_fit e now _ Hr) G16) as ->.
    assert (Hpd : pending_job T (ex_name (xe_consts e)) kj).
    { split; [exact D2|]. split; [exact D1|]. rewrite G14 in Hin. apply in_app_or in Hin. destruct Hin as [Hin|[<-|Hin]]; [|exact Hsch|].
      all: assert (Hi : In kj0 (pre ++ post)) by (apply in_or_app; auto).
      all: assert (Hdu : due now (ex_name (xe_consts e)) (kj_job kj0)) by (split; [exact Hex|split; [exact Hw|lia]]).
      all: specialize (G18 kj0 Hi Hdu); unfold strictly_before in G18; lia. }
    apply (proj2 (begin_runnable _ _ show _)) in Hr. destruct Hr as [x Hb]. destruct (begin_spawned _ _ show _ _ Hb) as [_ [_ [_ [_ [Hid _]]]]]. cbn [j_id after_hand_out] in Hid.
    set (n := w_next wk) in *.
    assert (Hfr : ~ In n (map fst (w_flights wk))).
    { destruct (task_winv utc upcoming show hash p es w _ e wk H (nth_error_In _ _ R1) eq_refl) as [_ [W2 _]]. intro Hi. specialize (W2 _ Hi). unfold n in W2. lia. }
    assert (Hl : w_life wk = Working /\ w_transit wk = None /\ may_poll (ex_max_concurrency (xe_consts e)) wk = true).
    { unfold polls in R2. destruct (w_life wk); try discriminate. destruct (w_transit wk); [discriminate|]. auto. }
    destruct Hl as [Hl [Htr Hmp]].
    (* it is started *)
    set (wk1 := push_flight (MJob (after_hand_out now (kj_job kj))) wk) in *.
    assert (F1 : w_flights wk1 = w_flights wk ++ [(n, FNew (MJob (after_hand_out now (kj_job kj))))]) by reflexivity.
    assert (S1 : wstep e wk1 (WStart n) = Some (progress n (Some (FExecuting x)) [Started n x] wk1)).
    { unfold worker_step. change (w_life wk1) with (w_life wk). rewrite Hl, F1, (flight_new _ _ _ Hfr), Hb. reflexivity. }
    destruct (do_worker utc upcoming show now i w1 _ e wk1 _ _ G9 eq_refl S1 ltac:(discriminate)) as [w2 [V2 [A2 [T2 [St2 [Sr2 As2]]]]]].
    cbn [ta_backend ta_token] in T2. set (wk2 := progress n (Some (FExecuting x)) [Started n x] wk1) in *.
    assert (F2 : w_flights wk2 = w_flights wk ++ [(n, FExecuting x)]) by (unfold wk2; cbn [progress w_flights]; rewrite F1; exact (set_new _ _ _ _ Hfr)).
    (* it ends well *)
    assert (S2 : wstep e wk2 (WEnd n now now ODone) = Some (progress n (Some (FReporting (OpComplete (x_id x)))) [Reported n (OpComplete (x_id x))]
                     (progress n (Some (FExecuting x)) [Outcome n ODone] wk2))).
    { unfold worker_step. change (w_life wk2) with (w_life wk). rewrite Hl, F2, (flight_new _ _ _ Hfr). reflexivity. }
    destruct (do_worker utc upcoming show now i w2 _ e wk2 _ _ T2 eq_refl S2 ltac:(discriminate)) as [w3 [V3 [A3 [T3 [St3 [Sr3 As3]]]]]].
    cbn [ta_backend ta_token] in T3.
    set (wk3 := progress n (Some (FReporting (OpComplete (x_id x)))) [Reported n (OpComplete (x_id x))] (progress n (Some (FExecuting x)) [Outcome n ODone] wk2)) in *.
    assert (F3 : w_flights wk3 = w_flights wk ++ [(n, FReporting (OpComplete (x_id x)))]).
    { unfold wk3. cbn [progress w_flights]. rewrite F2, (set_new _ _ _ _ Hfr). exact (set_new _ _ _ _ Hfr). }
    set (s4 := mk_c (c_mem s1) (c_calls s1 ++ [mk_call (OpComplete (x_id x)) PcStart None]) (c_streams s1)).
    assert (E4 : exists w4, vstep now w2 (VEnd i n now now ODone) = Some w4 /\ wd_process w4 = wd_process w3 /\ wd_stores w4 = set_nth b s4 (wd_stores w1)
              /\ wd_streams w4 = wd_streams w1 /\ wd_asks w4 = wd_asks w1 ++ [mk_ask i n (length (c_calls s1))]).
    { cbn [world_step]. unfold world_end. rewrite V3, T3. cbn [ta_body ta_backend]. rewrite F3, (flight_new _ _ _ Hfr). unfold ask_for, on_store.
      rewrite St3, St2, G10. eexists. split; [reflexivity|]. cbn. rewrite As3, As2, Sr3, Sr2. auto. }
    destruct E4 as [w4 [V4 [P4 [St4 [Sr4 As4]]]]].
    (* the store carries out the report *)
    assert (Hids : NoDup (map (fun x => j_id (kj_job x)) (m_jobs (c_mem s)))) by (eapply ids_thm; eassumption).
    set (kj' := mk_kjob (after_complete now (after_hand_out now (kj_job kj))) (kj_key kj)).
    assert (E5 : mem_step p now (c_mem s1) (OpComplete (x_id x)) = (set_jobs (pre ++ kj' :: post) (c_mem s1), RUnit (Ok tt))).
    { cbn [mem_step]. unfold mem_mark_complete.
      pose proof (with_job_spec (c_mem s1) (x_id x) (fun j => Some (job_complete now j)) false G13) as L.
      assert (Hmine : In (mk_kjob (after_hand_out now (kj_job kj)) (kj_key kj)) (m_jobs (c_mem s1))) by (rewrite G17; apply in_elt).
      destruct (with_job _ _ _ _) as [m' [u|err|]].
      - destruct L as [pre' [k1 [post' [j1 [L1 [L2 [L3 [L4 L5]]]]]]]]. destruct u. injection L4 as <-. rewrite job_complete_spec in L5.
        assert (Heq : pre' = pre /\ k1 = mk_kjob (after_hand_out now (kj_job kj)) (kj_key kj) /\ post' = post).
        { rewrite G17 in L1. rewrite G14, map_app in Hids. cbn [map] in Hids. rewrite Hid in L2, L3. clear -L1 L2 L3 Hids.
          apply NoDup_remove_2 in Hids. revert pre' L1 L3. induction pre as [|y pre IH]; intros pre' L1 L3.
          - destruct pre' as [|z pre']; cbn in L1; [injection L1 as <- <-; auto|]. injection L1 as <- _. exfalso. exact (L3 _ (or_introl eq_refl) eq_refl).
          - destruct pre' as [|z pre']; cbn in L1.
            + injection L1 as <- _. exfalso. apply Hids. cbn. left. exact L2.
            + injection L1 as <- L1. cbn in Hids.
              destruct (IH (fun Hi => Hids (or_intror Hi)) pre' L1 (fun y0 Hy => L3 y0 (or_intror Hy))) as [-> [-> ->]]. auto. }
        destruct Heq as [-> [-> ->]]. rewrite L5. reflexivity.
      - destruct L as [_ [_ L]]. exfalso. apply (L _ Hmine). symmetry. exact Hid.
      - destruct L as [_ [? [? [? [_ [_ [_ L]]]]]]]. discriminate. }
    set (s5 := mk_c (set_jobs (pre ++ kj' :: post) (c_mem s1)) (c_calls s1 ++ [mk_call (OpComplete (x_id x)) (PcDone (RUnit (Ok tt))) None]) (c_streams s1)).
    assert (E5' : exists w5, vstep now w4 (VRun b (length (c_calls s1))) = Some w5 /\ wd_process w5 = wd_process w3 /\ wd_stores w5 = set_nth b s5 (wd_stores w4)
              /\ wd_streams w5 = wd_streams w1 /\ wd_asks w5 = wd_asks w4).
    { cbn [world_step]. unfold on_store. rewrite St4, (nth_set_same _ _ _ _ G10). cbn [conc_step]. unfold s4 at 1. cbn [c_calls].
      rewrite nth_error_app2 by lia. rewrite Nat.sub_diag. cbn [nth_error call_step cl_pc cl_op]. unfold s4. cbn [c_mem c_calls c_streams]. rewrite E5.
      eexists. split; [reflexivity|]. cbn [wd_process wd_stores wd_streams wd_asks]. split; [exact P4|]. split; [|auto].
      f_equal. unfold s5. cbn [fst cl_id]. f_equal. apply set_at_end. }
    destruct E5' as [w5 [V5 [P5 [St5 [Sr5 As5]]]]].
    (* and the worker gets the answer *)
    assert (S5 : wstep e wk3 (WReported n (Ok tt)) = Some (progress n None [] wk3)).
    { unfold worker_step. change (w_life wk3) with (w_life wk). rewrite Hl, F3, (flight_new _ _ _ Hfr). reflexivity. }
    destruct (do_worker utc upcoming show now i w5 _ e wk3 _ _ ltac:(rewrite P5; exact T3) eq_refl S5 ltac:(discriminate)) as [w6 [V6 [A6 [T6 [St6 [Sr6 As6]]]]]].
    cbn [ta_backend ta_token] in T6. set (wk6 := progress n None [] wk3) in *.
    assert (F6 : w_flights wk6 = w_flights wk) by (unfold wk6; cbn [progress w_flights]; rewrite F3, (set_new _ _ _ _ Hfr); apply app_nil_r).
    set (es' := es1 ++ [(now, VStart i n); (now, VEnd i n now now ODone); (now, VRun b (length (c_calls s1)))]).
    assert (R5' : vrun w es' = Some w5).
    { unfold es'. rewrite vrun_app, G1. cbn [world_run world_step]. rewrite V2. cbn [world_step] in V4. rewrite V4. cbn [world_step] in V5. rewrite V5. reflexivity. }
    assert (Ev : vstep now w5 (VAnswer i n) = Some w6).
    { assert (H5 : vrun world_init (es ++ es') = Some w5) by (rewrite vrun_app, H; exact R5').
      destruct (report_thm utc upcoming show hash p _ w5 i _ e wk3 n (OpComplete (x_id x)) H5 ltac:(rewrite P5; exact T3) eq_refl ltac:(rewrite F3; exact (flight_new _ _ _ Hfr))) as [a [c [Y1 [Y2 [Y3 Y4]]]]].
      assert (Ha : a = mk_ask i n (length (c_calls s1))).
      { rewrite As5, As4, filter_app in Y1. cbn [filter ak_task ak_turn] in Y1. rewrite !Nat.eqb_refl in Y1. cbn [andb] in Y1.
        destruct (filter _ (wd_asks w1)) as [|a1 l]; cbn in Y1; [injection Y1 as <-; reflexivity|]. injection Y1 as _ Y1. destruct l; discriminate. }
      subst a. unfold call_at in Y2. rewrite P5, T3 in Y2. cbn [ta_backend ak_call] in Y2. rewrite St5 in Y2.
      assert (Hb4 : nth_error (wd_stores w4) b = Some s4) by (rewrite St4; exact (nth_set_same _ _ _ _ G10)).
      rewrite (nth_set_same _ _ _ _ Hb4) in Y2. unfold s5 in Y2. cbn [c_calls] in Y2. rewrite nth_error_app2 in Y2 by lia. rewrite Nat.sub_diag in Y2.
      injection Y2 as <-. cbn [world_step]. unfold world_answer. rewrite Y4. exact V6. }
    assert (Hb6 : nth_error (wd_stores w6) b = Some s5).
    { rewrite St6, St5. apply (nth_set_same b s5 _ s4). rewrite St4. exact (nth_set_same _ _ _ _ G10). }
    exists (es' ++ [(now, VAnswer i n)]), w6, s5, wk6, pre, kj, kj', post.
    split; [rewrite vrun_app, R5'; cbn [world_run]; rewrite Ev; reflexivity|].
    split; [unfold es'; repeat apply owns_app; [exact G2|repeat constructor..]|].
    split; [unfold es', late; repeat (apply Forall_app; split); [exact G3|repeat constructor; exact G4..]|].
    split.
    { eapply (aside_trans utc upcoming); [exact G5|]. eapply (aside_trans utc upcoming); [exact A2|]. eapply (aside_trans utc upcoming); [exact A3|].
      eapply (aside_trans utc upcoming); [|exact A6]. apply aside_same. exact P5. }
    split. { intros b' Hb'. rewrite St6, St5, nth_set_nth_other, St4, nth_set_nth_other by congruence. exact (G6 b' Hb'). }
    split.
    { constructor; [exact T6| | |exact Hb6| |].
      - unfold polls. change (w_life wk6) with (w_life wk). change (w_transit wk6) with (@None message). rewrite Hl.
        unfold may_poll in *. change (w_open wk6) with (w_open wk). change (w_cancelled wk6) with (w_cancelled wk). rewrite F6. exact Hmp.
      - rewrite Sr6, Sr5, G8. exact R3.
      - exists sb. cbn [s5 c_mem]. split; [|exact R6]. change (m_subs (set_jobs (pre ++ kj' :: post) (c_mem s1))) with (m_subs (c_mem s1)). rewrite G12. exact R5.
      - exact G13. }
    split; [exact F6|]. split; [cbn [s5 c_calls]; rewrite G11, Hid; reflexivity|]. split; [exact G14|]. split; [exact Hpd|]. split; [reflexivity|].
    exists now, now. split; [lia|reflexivity].
  Qed.

  Definition pendb (T : time) (ex : string) (x : kjob) : bool :=
    match j_status (kj_job x) with Scheduled | Retryable => true | _ => false end && String.eqb (j_executor (kj_job x)) ex && (j_scheduled_at (kj_job x) <=? T).
  Lemma pendb_ok T ex x : pendb T ex x = true <-> pending_job T ex x.
  Proof.
    unfold pendb, pending_job, waiting. rewrite !Bool.andb_true_iff, String.eqb_eq, Z.leb_le. destruct (j_status (kj_job x)); intuition congruence.
  Qed.
  Lemma done_not_pending T T' ex x y : done_after T x y -> ~ pending_job T' ex y.
  Proof. intros [t1 [t2 [_ ->]]] [[H|H] _]; discriminate. Qed.
  (** What becomes of a job: it is done if its time has come, and otherwise untouched. *)
  Definition served (T : time) (ex : string) (x y : kjob) : Prop := y = x \/ (pending_job T ex x /\ done_after T x y).
  Lemma served_trans T ex : forall l1 l2 l3, Forall2 (served T ex) l1 l2 -> Forall2 (served T ex) l2 l3 -> Forall2 (served T ex) l1 l3.
  Proof.
    intros l1 l2 l3 H. revert l3. induction H as [|x y l1 l2 Hxy _ IH]; intros l3 K; inversion K as [|? z ? l3' Hyz K']; subst; constructor; [|apply IH; exact K'].
    destruct Hyz as [->|[P D]]; [exact Hxy|]. destruct Hxy as [->|[P' D']]; [right; auto|]. destruct (done_not_pending _ _ _ _ _ D' P).
  Qed.
  Lemma served_refl T ex l : Forall2 (served T ex) l l.
  Proof. induction l; constructor; [left; reflexivity|assumption]. Qed.

  Lemma serve_all T : forall m es w i b tk e wk k s, (length (filter (pendb T (ex_name (xe_consts e))) (m_jobs (c_mem s))) <= m)%nat ->
    vrun world_init es = Some w -> ready w i b tk e wk k s ->
    Z.of_nat (length (filter enqueues_job (c_calls s))) <= 4294967296 -> can_run e (c_mem s) ->
    exists es' w' s' wk' done, vrun w es' = Some w' /\ owns b i es' /\ late T es' /\ aside i w w' /\ elsewhere b w w'
      /\ ready w' i b tk e wk' k s' /\ w_flights wk' = w_flights wk
      /\ c_calls s' = c_calls s ++ map (fun id => mk_call (OpComplete id) (PcDone (RUnit (Ok tt))) None) done
      /\ Forall2 (served T (ex_name (xe_consts e))) (m_jobs (c_mem s)) (m_jobs (c_mem s'))
      /\ (forall x, In x (m_jobs (c_mem s')) -> ~ pending_job T (ex_name (xe_consts e)) x).
  Proof.
    induction m as [|m IH]; intros es w i b tk e wk k s Hm H R Hn Hc.
    all: destruct (filter (pendb T (ex_name (xe_consts e))) (m_jobs (c_mem s))) as [|kj0 l] eqn:Ef.
    1,3: exists [], w, s, wk, []; split; [reflexivity|]; split; [constructor|]; split; [constructor|]; split; [apply aside_refl|]; split; [intros ? _; reflexivity|];
      split; [exact R|]; split; [reflexivity|]; split; [symmetry; apply app_nil_r|]; split; [apply served_refl|];
      intros x Hx Hp; apply pendb_ok in Hp; assert (Hf : In x (filter (pendb T (ex_name (xe_consts e))) (m_jobs (c_mem s)))) by (apply filter_In; auto);
      rewrite Ef in Hf; destruct Hf.
    { cbn in Hm. lia. }
    assert (H0 : In kj0 (m_jobs (c_mem s)) /\ pending_job T (ex_name (xe_consts e)) kj0).
    { assert (Hf : In kj0 (filter (pendb T (ex_name (xe_consts e))) (m_jobs (c_mem s)))) by (rewrite Ef; left; reflexivity).
      apply filter_In in Hf. destruct Hf as [Hf1 Hf2]. split; [exact Hf1|]. apply pendb_ok. exact Hf2. }
    destruct H0 as [H0 H1].
    destruct (serve_one T es w i b tk e wk k s kj0 H R Hn H0 H1 Hc) as [es1 [w1 [s1 [wk1 [pre [kj [kj' [post Q]]]]]]]].
    destruct Q as [Q1 [Q2 [Q3 [Q4 [Q5 [Q6 [Q7 [Q8 [Q9 [Q10 [Q11 Q12]]]]]]]]]]].
    assert (Hlen : (length (filter (pendb T (ex_name (xe_consts e))) (m_jobs (c_mem s1))) <= m)%nat).
    { rewrite <- Ef, Q9 in Hm. rewrite Q11. rewrite filter_app, app_length in *. cbn [filter] in *.
      destruct (pendb T (ex_name (xe_consts e)) kj') eqn:E1; [apply pendb_ok in E1; destruct (done_not_pending _ _ _ _ _ Q12 E1)|].
      apply pendb_ok in Q10. rewrite Q10 in Hm. cbn [length] in Hm. lia. }
    assert (Hc1 : can_run e (c_mem s1)).
    { intros x Hx Hwx Hxe. rewrite Q11 in Hx. apply Hc; [|exact Hwx|exact Hxe]. rewrite Q9. apply in_app_or in Hx. apply in_or_app.
      destruct Hx as [Hx|[<-|Hx]]; [auto| |right; right; exact Hx]. exfalso.
      destruct Q12 as [t1 [t2 [_ ->]]]. destruct Hwx; discriminate. }
    assert (Hn1 : Z.of_nat (length (filter enqueues_job (c_calls s1))) <= 4294967296).
    { rewrite Q8, filter_app. cbn [filter enqueues_job cl_op]. rewrite app_nil_r. exact Hn. }
    destruct (IH (es ++ es1) w1 i b tk e wk1 k s1 Hlen ltac:(rewrite vrun_app, H; exact Q1) Q6 Hn1 Hc1) as [es2 [w2 [s2 [wk2 [done Q]]]]].
    destruct Q as [U1 [U2 [U3 [U4 [U5 [U6 [U7 [U8 [U9 U10]]]]]]]]].
    exists (es1 ++ es2), w2, s2, wk2, (j_id (kj_job kj) :: done).
    split; [rewrite vrun_app, Q1; exact U1|]. split; [apply owns_app; assumption|]. split; [apply Forall_app; split; assumption|].
    split; [eapply (aside_trans utc upcoming); eassumption|]. split; [intros b' Hb; rewrite U5, Q5 by exact Hb; reflexivity|].
    split; [exact U6|]. split; [congruence|]. split; [rewrite U8, Q8, <- app_assoc; reflexivity|]. split; [|exact U10].
    eapply served_trans; [|exact U9]. rewrite Q9, Q11. apply Forall2_app; [apply served_refl|]. constructor; [right; auto|apply served_refl].
  Qed.

  Lemma room_polls e wk : has_room e wk <-> polls e wk = true.
  Proof.
    unfold has_room, polls, may_poll. destruct (w_life wk); try (split; [intros [? _]; discriminate|discriminate]).
    destruct (w_transit wk); [split; [intros [_ [? _]]; discriminate|discriminate]|].
    destruct (w_open wk), (w_cancelled wk); cbn [andb negb]; try (split; [intros [_ [_ [? [? _]]]]; discriminate|discriminate]).
    unfold below_limit. destruct (ex_max_concurrency (xe_consts e)) as [l|]; [|tauto].
    rewrite Bool.orb_true_iff, Z.eqb_eq, Z.ltb_lt. tauto.
  Qed.

  Theorem work_thm T es w i t e wk s : vrun world_init es = Some w -> nth_error (pr_tasks (wd_process w)) i = Some t -> ta_body t = BWorker e wk ->
    has_room e wk -> nth_error (wd_stores w) (ta_backend t) = Some s -> workable e s ->
    exists es' w' s' wk' done, vrun w es' = Some w' /\ owns (ta_backend t) i es' /\ late T es' /\ aside i w w' /\ elsewhere (ta_backend t) w w'
      /\ nth_error (pr_tasks (wd_process w')) i = Some (mk_task (ta_backend t) (ta_token t) (BWorker e wk'))
      /\ has_room e wk' /\ w_flights wk' = w_flights wk
      /\ nth_error (wd_stores w') (ta_backend t) = Some s' /\ m_poisoned (c_mem s') = false
      /\ c_calls s' = c_calls s ++ map (fun id => mk_call (OpComplete id) (PcDone (RUnit (Ok tt))) None) done
      /\ Forall2 (served T (ex_name (xe_consts e))) (m_jobs (c_mem s)) (m_jobs (c_mem s'))
      /\ (forall x, In x (m_jobs (c_mem s')) -> ~ pending_job T (ex_name (xe_consts e)) x).
  Proof.
    intros H Ht Eb Htk Hs [W1 [W2 W3]]. destruct t as [b tk bd]. cbn [ta_body ta_backend ta_token] in *. subst bd.
    destruct (stream_thm utc upcoming show hash p es w i _ e wk H Ht eq_refl) as [k [s0 [sb [A1 [A2 [A3 [A4 _]]]]]]]. cbn [ta_backend] in A2.
    assert (s0 = s) as -> by congruence.
    assert (R : ready w i b tk e wk k s) by (constructor; auto; [apply room_polls; exact Htk|eauto]).
    destruct (serve_all T _ es w i b tk e wk k s (le_n _) H R W2) as [es' [w' [s' [wk' [done Q]]]]].
    { intros x Hx. apply W3. apply in_map. exact Hx. }
    destruct Q as [U1 [U2 [U3 [U4 [U5 [U6 [U7 [U8 [U9 U10]]]]]]]]]. destruct U6 as [R1 R2 R3 R4 _ R6].
    exists es', w', s', wk', done. do 6 (split; [assumption|]). split; [apply room_polls; exact R2|]. auto 10.
  Qed.

  (** All the workers, one after the other. *)
  Definition tended (T : time) (x y : kjob) : Prop := exists ex, served T ex x y.
  Lemma tended_trans T : forall l1 l2 l3, Forall2 (tended T) l1 l2 -> Forall2 (tended T) l2 l3 -> Forall2 (tended T) l1 l3.
  Proof.
    intros l1 l2 l3 H. revert l3. induction H as [|x y l1 l2 Hxy _ IH]; intros l3 K; inversion K as [|? z ? l3' Hyz K']; subst; constructor; [|apply IH; exact K'].
    destruct Hyz as [ex' [->|[P D]]]; [exact Hxy|]. destruct Hxy as [ex [->|[P' D']]]; [exists ex'; right; auto|]. destruct (done_not_pending _ _ _ _ _ D' P).
  Qed.
  Lemma tended_refl T l : Forall2 (tended T) l l.
  Proof. induction l; constructor; [exists EmptyString; left; reflexivity|assumption]. Qed.
  Lemma tended_back T l l' y : Forall2 (tended T) l l' -> In y l' -> waiting (kj_job y) -> In y l.
  Proof.
    intros H Hy Hw. induction H as [|a b l l' Hab _ IH]; [destruct Hy|]. destruct Hy as [->|Hy]; [|right; auto]. left.
    destruct Hab as [ex [->|[_ D]]]; [reflexivity|]. exfalso. destruct D as [t1 [t2 [_ ->]]]. destruct Hw; discriminate.
  Qed.
  Lemma tended_workable T e s s' done : workable e s -> m_poisoned (c_mem s') = false ->
    c_calls s' = c_calls s ++ map (fun id => mk_call (OpComplete id) (PcDone (RUnit (Ok tt))) None) done ->
    Forall2 (tended T) (m_jobs (c_mem s)) (m_jobs (c_mem s')) -> workable e s'.
  Proof.
    intros [W1 [W2 W3]] Hp Hc Ht. split; [exact Hp|]. split.
    - rewrite Hc, filter_app. replace (filter enqueues_job (map (fun id => mk_call (OpComplete id) (PcDone (RUnit (Ok tt))) None) done)) with (@nil call).
      + rewrite app_nil_r. exact W2.
      + clear. induction done as [|id l IH]; [reflexivity|]. cbn. exact IH.
    - intros j Hj Hw. apply in_map_iff in Hj. destruct Hj as [y [<- Hy]]. apply W3; [|exact Hw]. apply in_map. eapply tended_back; eassumption.
  Qed.

  Theorem all_work T es w : vrun world_init es = Some w ->
    (forall i t e wk s, nth_error (pr_tasks (wd_process w)) i = Some t -> ta_body t = BWorker e wk -> has_room e wk ->
       nth_error (wd_stores w) (ta_backend t) = Some s -> workable e s) ->
    forall n, exists es' w', vrun w es' = Some w' /\ Forall (fun x => by_itself (snd x)) es' /\ late T es'
      /\ pr_rexecutors (wd_process w') = pr_rexecutors (wd_process w) /\ pr_cell (wd_process w') = pr_cell (wd_process w)
      /\ length (pr_tasks (wd_process w')) = length (pr_tasks (wd_process w))
      /\ length (wd_stores w') = length (wd_stores w)
      /\ (forall i t, nth_error (pr_tasks (wd_process w)) i = Some t ->
           exists t', nth_error (pr_tasks (wd_process w')) i = Some t' /\ ta_backend t' = ta_backend t /\ ta_token t' = ta_token t
             /\ (t' = t \/ exists e wk wk', ta_body t = BWorker e wk /\ ta_body t' = BWorker e wk' /\ has_room e wk /\ has_room e wk' /\ w_flights wk' = w_flights wk)
             /\ ((n <= i)%nat -> t' = t))
      /\ (forall b s, nth_error (wd_stores w) b = Some s -> exists s' done, nth_error (wd_stores w') b = Some s'
             /\ c_calls s' = c_calls s ++ map (fun id => mk_call (OpComplete id) (PcDone (RUnit (Ok tt))) None) done
             /\ m_poisoned (c_mem s') = m_poisoned (c_mem s)
             /\ Forall2 (tended T) (m_jobs (c_mem s)) (m_jobs (c_mem s')))
      /\ (forall i t e wk s', (i < n)%nat -> nth_error (pr_tasks (wd_process w)) i = Some t -> ta_body t = BWorker e wk -> has_room e wk ->
           nth_error (wd_stores w') (ta_backend t) = Some s' -> forall x, In x (m_jobs (c_mem s')) -> ~ pending_job T (ex_name (xe_consts e)) x).
  Proof.
    intros H Hwk. induction n as [|n [es1 [w1 [R1 [B1 [L1 [X1 [Y1 [N1 [M1 [T1 [S1 D1]]]]]]]]]]]].
    - exists [], w. split; [reflexivity|]. split; [constructor|]. split; [constructor|]. do 4 (split; [reflexivity|]).
      split; [intros i t Ht; exists t; repeat split; auto|]. split; [|intros; lia].
      intros b s Hs. exists s, []. cbn. rewrite app_nil_r. repeat split; auto. apply tended_refl.
    - assert (H1 : vrun world_init (es ++ es1) = Some w1) by (rewrite vrun_app, H; exact R1).
      assert (Skip : (forall t e wk, nth_error (pr_tasks (wd_process w)) n = Some t -> ta_body t = BWorker e wk -> ~ has_room e wk) ->
        exists es' w', vrun w es' = Some w' /\ Forall (fun x => by_itself (snd x)) es' /\ late T es'
      /\ pr_rexecutors (wd_process w') = pr_rexecutors (wd_process w) /\ pr_cell (wd_process w') = pr_cell (wd_process w)
      /\ length (pr_tasks (wd_process w')) = length (pr_tasks (wd_process w))
      /\ length (wd_stores w') = length (wd_stores w)
      /\ (forall i t, nth_error (pr_tasks (wd_process w)) i = Some t ->
           exists t', nth_error (pr_tasks (wd_process w')) i = Some t' /\ ta_backend t' = ta_backend t /\ ta_token t' = ta_token t
             /\ (t' = t \/ exists e wk wk', ta_body t = BWorker e wk /\ ta_body t' = BWorker e wk' /\ has_room e wk /\ has_room e wk' /\ w_flights wk' = w_flights wk)
             /\ ((S n <= i)%nat -> t' = t))
      /\ (forall b s, nth_error (wd_stores w) b = Some s -> exists s' done, nth_error (wd_stores w') b = Some s'
             /\ c_calls s' = c_calls s ++ map (fun id => mk_call (OpComplete id) (PcDone (RUnit (Ok tt))) None) done
             /\ m_poisoned (c_mem s') = m_poisoned (c_mem s)
             /\ Forall2 (tended T) (m_jobs (c_mem s)) (m_jobs (c_mem s')))
      /\ (forall i t e wk s', (i < S n)%nat -> nth_error (pr_tasks (wd_process w)) i = Some t -> ta_body t = BWorker e wk -> has_room e wk ->
           nth_error (wd_stores w') (ta_backend t) = Some s' -> forall x, In x (m_jobs (c_mem s')) -> ~ pending_job T (ex_name (xe_consts e)) x)).
      { intro Hno. exists es1, w1. do 7 (split; [assumption|]). split; [|split; [exact S1|]].
        - intros i t Ht. destruct (T1 i t Ht) as [t' [Q1 [Q2 [Q3 [Q4 Q5]]]]]. exists t'. do 4 (split; [assumption|]). intro; apply Q5; lia.
        - intros i t e wk s' Hi Ht Eb Htk. destruct (Nat.eq_dec i n) as [->|Hne]; [destruct (Hno t e wk Ht Eb Htk)|]. eapply D1; eauto; lia. }
      destruct (nth_error (pr_tasks (wd_process w)) n) as [t|] eqn:Ht; [|apply Skip; discriminate].
      destruct (ta_body t) as [e wk|e sc z data tk|sc cfg tk] eqn:Eb; [|apply Skip; intros t0 e0 wk0 E0; injection E0 as <-; congruence..].
      destruct (polls e wk) eqn:Ep; [|apply Skip; intros t0 e0 wk0 E0; injection E0 as <-; intros E0; rewrite Eb in E0; injection E0 as <- <-;
                                     rewrite room_polls; congruence].
      clear Skip. apply room_polls in Ep.
      destruct (T1 n t Ht) as [t1 [Q1 [_ [_ [_ Q5]]]]]. specialize (Q5 (le_n _)). subst t1.
      destruct (task_store utc upcoming show hash p es w n t H Ht) as [s Hs].
      destruct (S1 _ _ Hs) as [s1 [done1 [Hs1 [Hc1 [Hp1 Ht1]]]]].
      pose proof (Hwk n t e wk s Ht Eb Ep Hs) as Hws.
      assert (Hw1 : workable e s1) by (eapply tended_workable; [exact Hws|rewrite Hp1; exact (proj1 Hws)|exact Hc1|exact Ht1]).
      destruct (work_thm T _ w1 n t e wk s1 H1 Q1 Eb Ep Hs1 Hw1) as [es2 [w2 [s2 [wk2 [done2 Q]]]]].
      destruct Q as [R2 [O2 [L2 [A2 [E2 [N2 [Tk2 [F2 [Hs2 [P2 [C2 [V2 Z2]]]]]]]]]]]].
      assert (V2' : Forall2 (tended T) (m_jobs (c_mem s1)) (m_jobs (c_mem s2))).
      { clear -V2. induction V2; constructor; [eexists; eassumption|assumption]. }
      destruct A2 as [A21 [A22 [A23 [A24 A25]]]].
      exists (es1 ++ es2), w2. split; [rewrite vrun_app, R1; exact R2|].
      split; [apply Forall_app; split; [exact B1|eapply Forall_impl; [|exact O2]; intros x Hx; eapply own_by_itself; exact Hx]|].
      split; [apply Forall_app; split; assumption|]. split; [congruence|]. split; [congruence|]. split; [congruence|].
      split.
      { rewrite <- M1. apply Nat.le_antisymm.
        - destruct (Nat.le_gt_cases (length (wd_stores w2)) (length (wd_stores w1))) as [Hle|Hgt]; [exact Hle|]. exfalso.
          assert (Hb : length (wd_stores w1) <> ta_backend t) by (pose proof (nth_lt _ _ _ Hs1); lia).
          specialize (E2 _ Hb). rewrite (proj2 (nth_error_None (wd_stores w1) _) (le_n _)) in E2. apply nth_error_None in E2. lia.
        - destruct (Nat.le_gt_cases (length (wd_stores w1)) (length (wd_stores w2))) as [Hle|Hgt]; [exact Hle|]. exfalso.
          assert (Hb : length (wd_stores w2) <> ta_backend t) by (pose proof (nth_lt _ _ _ Hs2); lia).
          specialize (E2 _ Hb). rewrite (proj2 (nth_error_None (wd_stores w2) _) (le_n _)) in E2. symmetry in E2. apply nth_error_None in E2. lia. }
      split; [|split].
      + intros i t0 Ht0. destruct (T1 i t0 Ht0) as [t1 [Q2 [Q3 [Q4 [Q5 Q6]]]]]. destruct (Nat.eq_dec i n) as [->|Hne].
        * assert (t0 = t) as -> by congruence. exists (mk_task (ta_backend t) (ta_token t) (BWorker e wk2)). split; [exact N2|].
          split; [reflexivity|]. split; [reflexivity|]. split; [right; exists e, wk, wk2; auto 10|intro; lia].
        * exists t1. split; [rewrite A24 by exact Hne; exact Q2|]. do 3 (split; [assumption|]). intro. apply Q6. lia.
      + intros b sb Hb. destruct (S1 b sb Hb) as [sb1 [d1 [U1 [U2 [U3 U4]]]]]. destruct (Nat.eq_dec b (ta_backend t)) as [->|Hne].
        * assert (sb1 = s1) as -> by congruence. exists s2, (d1 ++ done2). split; [exact Hs2|].
          split; [rewrite C2, U2, map_app, app_assoc; reflexivity|]. split; [rewrite P2, <- U3; symmetry; exact (proj1 Hw1)|].
          eapply tended_trans; eassumption.
        * exists sb1, d1. rewrite E2 by exact Hne. auto.
      + intros i t0 e0 wk0 s' Hi Ht0 Eb0 Hk0 Hs' x Hx Hpx. destruct (Nat.eq_dec i n) as [->|Hne].
        * assert (t0 = t) as -> by congruence. rewrite Eb in Eb0. injection Eb0 as <- <-. assert (s' = s2) as -> by congruence. exact (Z2 x Hx Hpx).
        * destruct (Nat.eq_dec (ta_backend t0) (ta_backend t)) as [Eq|Hnb].
          -- rewrite Eq in Hs'. assert (s' = s2) as -> by congruence.
             refine (D1 i t0 e0 wk0 s1 ltac:(lia) Ht0 Eb0 Hk0 ltac:(rewrite Eq; exact Hs1) x _ Hpx). eapply tended_back; [exact V2'|exact Hx|exact (proj1 Hpx)].
          -- rewrite E2 in Hs' by exact Hnb. exact (D1 i t0 e0 wk0 s' ltac:(lia) Ht0 Eb0 Hk0 Hs' x Hx Hpx).
  Qed.
End Work.
