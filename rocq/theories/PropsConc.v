(** Properties of the in-memory backend for interleaved executions: every theorem is about every
    number of callers and worker streams and every interleaving of their atomic steps. *)
From Verif Require Import Base Chrono Types TypesProofs Query Memory MemSpec QueryProofs MemProofs
  MemHist MemHist2 MemNotify MemThms MemConc MemConcSpec MemConcProofs MemConcThms MemWake Samples PropsMem.

(** A call that nobody interrupts does what the operation does. *)
Theorem uninterrupted_call : forall p s i o now,
  nth_error (c_calls s) i = Some (mk_call o PcStart None) ->
  let s' := conc_run p s [LRun i now; LRun i now; LRun i now; LRun i now] in
  c_mem s' = fst (mem_step p now (c_mem s) o)
  /\ (exists drew, nth_error (c_calls s') i
        = Some (mk_call o (PcDone (snd (mem_step p now (c_mem s) o))) drew))
  /\ c_streams s' = c_streams s.
Proof.
  intros p s i o now Hi. cbn zeta.
  destruct (run_calls p i now 4 s _ Hi) as [H1 [H2 H3]]. cbn [repeat] in *. rewrite H1, H2, H3.
  rewrite (iter_calls_mem p i now (c_mem s) o).
  split; [reflexivity|]. split; [|reflexivity]. eexists. reflexivity.
Qed.
Print Assumptions uninterrupted_call.

Example uninterrupted_example :
  let s := mk_c m_sample [mk_call (OpEnqueue (req mail 2 9)) PcStart None] [] in
  let s' := conc_run Debug s [LRun 0 10; LRun 0 10; LRun 0 10; LRun 0 10] in
  length (m_jobs (c_mem s')) = 4%nat
  /\ nth_error (c_calls s') 0 = Some (mk_call (OpEnqueue (req mail 2 9)) (PcDone (RId (Ok 3))) (Some 3)).
Proof. vm_compute. auto. Qed.

(** * C02 Job ids are unique *)

(** [executed] allows 2^32 enqueue calls.  A conflicting unique enqueue returns the id of an
    existing job, so the last clause is about enqueues without criteria; the second is about every
    job ever stored. *)
Theorem C02_ids_unique : forall p ls s,
  executed p ls s ->
  NoDup (map j_id (jobs_of (c_mem s)))
  /\ NoDup (map j_id (inserted (conc_trace p c_init ls)))
  /\ (forall i1 i2 e1 e2 id, i1 <> i2 -> eq_criteria e1 = None -> eq_criteria e2 = None ->
        returned s i1 e1 id -> ~ returned s i2 e2 id).
Proof. exact conc_ids_lemma. Qed.
Print Assumptions C02_ids_unique.

(** Two callers whose steps alternate. *)
Definition ls_two : list label :=
  [ LCall (OpEnqueue (req mail 0 5)); LCall (OpEnqueue (req push 0 3)); LRun 0 1; LRun 1 1; LRun 1 2; LRun 0 2;
    LRun 0 3; LRun 1 3; LRun 0 4; LRun 1 4 ].

Example C02_example :
  executed Debug ls_two (conc_run Debug c_init ls_two)
  /\ map j_id (jobs_of (c_mem (conc_run Debug c_init ls_two))) = [1; 0]
  /\ returned (conc_run Debug c_init ls_two) 0 (req mail 0 5) 1
  /\ returned (conc_run Debug c_init ls_two) 1 (req push 0 3) 0.
Proof.
  split; [split; [reflexivity | vm_compute; discriminate]|]. split; [vm_compute; reflexivity|].
  split; eexists; vm_compute; reflexivity.
Qed.

(** * C03 An accepted job is never lost *)

(** Whatever interleaves, a job whose id was returned is in the store, or some prune found it in
    the store and in its scope. *)
Theorem C03_never_lost : forall p ls s i e id,
  executed p ls s -> returned s i e id ->
  In id (map j_id (jobs_of (c_mem s)))
  \/ exists a l b i now ps j, ls = a ++ l :: b
       /\ snd (conc_step p (conc_run p c_init a) l) = [EvApply i now (OpPrune ps) (RUnit (Ok tt))]
       /\ In j (jobs_of (c_mem (conc_run p c_init a))) /\ j_id j = id /\ in_scope ps j.
Proof. exact conc_never_lost. Qed.
Print Assumptions C03_never_lost.

Example C03_conc_example :
  executed Debug ls_two (conc_run Debug c_init ls_two)
  /\ returned (conc_run Debug c_init ls_two) 0 (req mail 0 5) 1.
Proof. exact (conj (proj1 C02_example) (proj1 (proj2 (proj2 C02_example)))). Qed.

(** * C06 A job is not handed out twice *)

(** Full property: between two hand-outs of a job there is a retry, snooze, rerun or update of it.
    Proved: there is one of those or the write-back of a conflicting unique enqueue.  Missing: the
    write-back case, refuted below. *)
Theorem C06_not_twice_partial : forall p ls s a x b y c id,
  executed p ls s -> conc_trace p c_init ls = a ++ x :: b ++ y :: c ->
  hand_out_of id x -> hand_out_of id y ->
  exists z, In z b /\ (release_of id z \/ write_back_of id z).
Proof.
  intros p ls s a x b y c id He Ht Hx Hy. apply (reopened_lemma p ls s a x b y c id He Ht); auto.
  destruct x; try contradiction. exact Hx.
Qed.
Print Assumptions C06_not_twice_partial.

Definition crit_any : criteria := mk_criteria None true None [Scheduled] DoNothing.

(** One job; a unique enqueue finds it, a worker takes it, the enqueue writes its copy back, the
    worker takes it again. *)
Definition ls_twice : list label :=
  [ LSubscribe mail;
    LCall (OpEnqueue (req mail 0 1)); LRun 0 1; LRun 0 1; LRun 0 1; LRun 0 1;
    LCall (OpEnqueue (ureq mail 0 9 crit_any)); LRun 1 2;
    LStream 0 3; LStream 0 3; LStream 0 3;
    LRun 1 4;
    LStream 0 5; LStream 0 5; LStream 0 5; LStream 0 5 ].

Theorem C06_not_twice_refuted :
  exists ls a x b y c,
    executed Debug ls (conc_run Debug c_init ls) /\ conc_trace Debug c_init ls = a ++ x :: b ++ y :: c
    /\ hand_out_of 0 x /\ hand_out_of 0 y /\ (forall z, In z b -> ~ release_of 0 z)
    /\ (forall l, In l ls -> match l with LCall (OpEnqueue e) =>
          forall uq, eq_criteria e = Some uq -> uc_on_conflict uq = DoNothing | LCall _ => False | _ => True end).
Proof.
  exists ls_twice.
  destruct (conc_trace Debug c_init ls_twice) as [|ev0 [|ev1 [|ev2 [|ev3 l]]]] eqn:E; vm_compute in E; try discriminate E.
  exists [ev0], ev1, [ev2], ev3, l. injection E as <- <- <- <- <-.
  split; [split; [reflexivity | vm_compute; discriminate]|]. split; [reflexivity|].
  split; [reflexivity|]. split; [reflexivity|]. split.
  - intros z [<-|[]] H. exact H.
  - intros l Hl. unfold ls_twice in Hl.
    repeat (destruct Hl as [<-|Hl]; [cbn; try exact I; intros uq H; try discriminate H; injection H as <-; reflexivity|]).
    destruct Hl.
Qed.
Print Assumptions C06_not_twice_refuted.

(** Without unique enqueues the full property holds. *)
Theorem C06_not_twice_without_criteria : forall p ls s a x b y c id,
  executed p ls s -> conc_trace p c_init ls = a ++ x :: b ++ y :: c ->
  (forall e, In (LCall (OpEnqueue e)) ls -> eq_criteria e = None) ->
  hand_out_of id x -> hand_out_of id y ->
  exists z, In z b /\ release_of id z.
Proof.
  intros p ls s a x b y c id He Ht Hc Hx Hy.
  destruct (C06_not_twice_partial p ls s a x b y c id He Ht Hx Hy) as [z [Hz [H|H]]]; [eauto|].
  exfalso. destruct z as [| |i j r|]; try contradiction.
  apply (no_write_back p ls s i j r He Hc). rewrite Ht. apply in_or_app. right. right. apply in_or_app. auto.
Qed.
Print Assumptions C06_not_twice_without_criteria.

(** A job is handed out, retried and handed out again. *)
Definition ls_retry : list label :=
  [ LSubscribe mail;
    LCall (OpEnqueue (req mail 0 1)); LRun 0 1; LRun 0 1; LRun 0 1; LRun 0 1;
    LStream 0 3; LStream 0 3; LStream 0 3;
    LCall (OpRetryable 0 4 boom); LRun 1 4;
    LStream 0 5; LStream 0 5; LStream 0 5; LStream 0 5 ].

Example C06_example :
  exists a x b y c,
    executed Debug ls_retry (conc_run Debug c_init ls_retry)
    /\ conc_trace Debug c_init ls_retry = a ++ x :: b ++ y :: c
    /\ hand_out_of 0 x /\ hand_out_of 0 y
    /\ (forall e, In (LCall (OpEnqueue e)) ls_retry -> eq_criteria e = None).
Proof.
  destruct (conc_trace Debug c_init ls_retry) as [|ev0 [|ev1 [|ev2 [|ev3 l]]]] eqn:E; vm_compute in E; try discriminate E.
  exists [ev0], ev1, [ev2], ev3, l. injection E as <- <- <- <- <-.
  split; [split; [reflexivity | vm_compute; discriminate]|]. split; [reflexivity|].
  split; [reflexivity|]. split; [reflexivity|].
  intros e He. unfold ls_retry in He.
  repeat (destruct He as [He|He]; [try discriminate He; injection He as <-; reflexivity|]). destruct He.
Qed.

(** * C20 with overlapping calls: no hand-out after a hand-out or a successful complete, discard or
    cancel, unless the job was released or written back in between. *)
Theorem C20_closed_jobs_partial : forall p ls s a x b y c id,
  executed p ls s -> conc_trace p c_init ls = a ++ x :: b ++ y :: c ->
  closes id x -> hand_out_of id y ->
  exists z, In z b /\ (release_of id z \/ write_back_of id z).
Proof. exact reopened_lemma. Qed.
Print Assumptions C20_closed_jobs_partial.

(** A job is cancelled, rerun and handed out. *)
Definition ls_cancel : list label :=
  [ LSubscribe mail;
    LCall (OpEnqueue (req mail 0 1)); LRun 0 1; LRun 0 1; LRun 0 1; LRun 0 1;
    LCall (OpCancelled 0 stop); LRun 1 4; LCall (OpRerun 0); LRun 2 5;
    LStream 0 5; LStream 0 5; LStream 0 5; LStream 0 5 ].

Example C20_conc_example :
  exists a x b y c,
    executed Debug ls_cancel (conc_run Debug c_init ls_cancel)
    /\ conc_trace Debug c_init ls_cancel = a ++ x :: b ++ y :: c
    /\ closes 0 x /\ hand_out_of 0 y.
Proof.
  destruct (conc_trace Debug c_init ls_cancel) as [|ev0 [|ev1 [|ev2 [|ev3 l]]]] eqn:E; vm_compute in E; try discriminate E.
  exists [ev0], ev1, [ev2], ev3, l. injection E as <- <- <- <- <-.
  split; [split; [reflexivity | vm_compute; discriminate]|]. split; [reflexivity|].
  split; reflexivity.
Qed.

(** * C07 A conflicting enqueue with do-nothing changes nothing *)

(** Full property: whatever runs at the same time.  Proved: when nothing runs at the same time.
    Missing: overlapping operations, refuted below. *)
Theorem C07_do_nothing_partial : forall p h m now e uq k,
  reached p h m -> m_poisoned m = false ->
  eq_criteria e = Some uq -> uc_on_conflict uq = DoNothing ->
  In k (m_jobs m) -> conflicts_mem now e k ->
  exists k', In k' (m_jobs m) /\ conflicts_mem now e k'
    /\ snd (mem_step p now m (OpEnqueue e)) = RId (Ok (j_id (kj_job k')))
    /\ m_jobs (fst (mem_step p now m (OpEnqueue e))) = m_jobs m.
Proof.
  intros p h m now e uq k Hr Hp Hu Hd Hk Hc.
  destruct (enqueue_ok p now m e Hp) as [m' [id [E _]]]. rewrite E. cbn [fst snd].
  destruct (C10_conflict_replacement _ _ _ _ _ _ _ _ Hr E Hk Hc) as [pre [k' [post [H1 [H2 [H3 [H4 H5]]]]]]].
  exists k'. rewrite H1 at 1. split; [apply in_mid; auto|]. split; [exact H3|]. split; [congruence|].
  rewrite H2, H1. unfold after_conflict. rewrite Hu, Hd. destruct k'. reflexivity.
Qed.
Print Assumptions C07_do_nothing_partial.

Example C07_example :
  exists k, reached Debug h_sample m_sample /\ In k (m_jobs m_sample)
    /\ conflicts_mem 20 (ureq push 0 9 crit_any) k
    /\ snd (mem_step Debug 20 m_sample (OpEnqueue (ureq push 0 9 crit_any))) = RId (Ok 2).
Proof.
  destruct (nth_error (m_jobs m_sample) 2) as [k|] eqn:E; vm_compute in E; [|discriminate E].
  exists k. split; [split; [reflexivity | vm_compute; discriminate]|].
  split; [apply (nth_error_In _ 2); rewrite <- E; vm_compute; reflexivity|].
  split; [|vm_compute; reflexivity]. injection E as <-.
  exists crit_any. cbn. split; [reflexivity|]. split; [reflexivity|]. split; [reflexivity|].
  split; [auto | discriminate].
Qed.

(** A do-nothing enqueue turns a job a worker is executing back into a scheduled one. *)
Theorem C07_do_nothing_refuted :
  exists ls i now,
    let s := conc_run Debug c_init ls in
    executed Debug ls s
    /\ (exists j drew, nth_error (c_calls s) i
          = Some (mk_call (OpEnqueue (ureq mail 0 9 crit_any)) (PcWriteBack j) drew))
    /\ map j_status (jobs_of (c_mem s)) = [Executing]
    /\ map j_status (jobs_of (c_mem (fst (conc_step Debug s (LRun i now))))) = [Scheduled].
Proof.
  exists (firstn 11 ls_twice), 1%nat, 4. cbn zeta.
  split; [split; [reflexivity | vm_compute; discriminate]|].
  split; [do 2 eexists; vm_compute; reflexivity|]. split; vm_compute; reflexivity.
Qed.
Print Assumptions C07_do_nothing_refuted.

(** * C08 Concurrent enqueues of the same unique job insert one job *)

(** Full property: for overlapping callers.  Proved: for callers one after the other.  Missing:
    overlapping callers, refuted below. *)
Theorem C08_one_insert_partial : forall p h m now e uq id rest,
  reached p h m -> enqueues h + 1 + Z.of_nat (length rest) <= 4294967296 -> m_poisoned m = false ->
  snd (mem_step p now m (OpEnqueue e)) = RId (Ok id) -> eq_criteria e = Some uq ->
  let new := mk_kjob (new_job now id e) (uc_key uq) in
  (forall k, In k (m_jobs m) -> ~ conflicts_mem now e k) ->
  (forall t e', In (t, e') rest -> conflicts_mem t e' new
     /\ (forall k, In k (m_jobs m) -> ~ conflicts_mem t e' k)
     /\ exists uq', eq_criteria e' = Some uq' /\ uc_on_conflict uq' = DoNothing) ->
  let h2 := map (fun te => (fst te, OpEnqueue (snd te))) ((now, e) :: rest) in
  m_jobs (mem_run p m h2) = m_jobs m ++ [new]
  /\ Forall (fun x => snd x = RId (Ok id)) (mem_trace p m h2).
Proof.
  intros p h m now e uq id rest Hr Hn Hp Hs Hu new Hno Hrest. cbn zeta. cbn [map fst snd mem_run mem_trace].
  destruct (mem_step p now m (OpEnqueue e)) as [m1 r] eqn:E. cbn [fst snd] in *. subst r.
  assert (Hr1 : reached p (h ++ [(now, OpEnqueue e)]) m1).
  { destruct Hr as [-> Hr]. split; [rewrite mem_run_app; cbn [mem_run]; rewrite E; reflexivity|].
    unfold enqueues in *. rewrite filter_app, app_length. cbn. lia. }
  destruct (C09_sequential_uniqueness _ _ _ _ _ _ _ Hr E) as [[_ Hm1]|[k [H1 [H2 _]]]];
    [|exfalso; exact (Hno k H1 H2)].
  rewrite Hu in Hm1. fold new in Hm1.
  assert (Hp1 : m_poisoned m1 = false).
  { destruct (enqueue_ok p now m e Hp) as [m' [id' [E' H]]]. congruence. }
  assert (Hlen : enqueues (h ++ [(now, OpEnqueue e)]) + Z.of_nat (length rest) <= 4294967296).
  { unfold enqueues in *. rewrite filter_app, app_length. cbn. lia. }
  revert Hr1 Hm1 Hp1 Hlen. generalize (h ++ [(now, OpEnqueue e)]). clear E. revert m1.
  induction rest as [|[t e'] rest IH]; intros m1 h1 Hr1 Hm1 Hp1 Hlen; cbn [map fst snd mem_run mem_trace].
  { auto. }
  destruct (Hrest t e' (or_introl eq_refl)) as [Hc [Hn' [uq' [Hu' Hd]]]].
  destruct (C07_do_nothing_partial p h1 m1 t e' uq' new Hr1 Hp1 Hu' Hd) as [k' [H1 [H2 [H3 H4]]]];
    [rewrite Hm1; apply in_or_app; right; left; reflexivity | exact Hc|].
  assert (k' = new) as ->.
  { rewrite Hm1 in H1. apply in_app_or in H1. destruct H1 as [H1|[H1|[]]]; [|auto]. exfalso. exact (Hn' _ H1 H2). }
  destruct (enqueue_ok p t m1 e' Hp1) as [m2 [id' [E Hp2]]]. rewrite E in *. cbn [fst snd] in *.
  destruct (IH ltac:(cbn [length] in Hn; lia) ltac:(intros; apply Hrest; right; assumption) m2 (h1 ++ [(t, OpEnqueue e')])) as [H5 H6].
  - destruct Hr1 as [-> Hr1]. split; [rewrite mem_run_app; cbn [mem_run]; rewrite E; reflexivity|].
    unfold enqueues in *. rewrite filter_app, app_length. cbn [length filter is_enqueue snd] in *. lia.
  - congruence.
  - exact Hp2.
  - unfold enqueues in *. rewrite filter_app, app_length. cbn [length filter is_enqueue snd] in *. lia.
  - split; [exact H5|]. inversion H6; subst. constructor; [reflexivity|]. constructor; [exact H3 | assumption].
Qed.
Print Assumptions C08_one_insert_partial.

Example C08_example :
  reached Debug h_sample m_sample /\ m_poisoned m_sample = false
  /\ snd (mem_step Debug 20 m_sample (OpEnqueue (ureq mail 1 30 crit77))) = RId (Ok 3)
  /\ (forall k, In k (m_jobs m_sample) -> ~ conflicts_mem 20 (ureq mail 1 30 crit77) k)
  /\ conflicts_mem 21 (ureq mail 1 30 crit77) (mk_kjob (new_job 20 3 (ureq mail 1 30 crit77)) (Some 77)).
Proof.
  split; [split; [reflexivity | vm_compute; discriminate]|]. split; [reflexivity|].
  split; [vm_compute; reflexivity|]. split.
  - intros k Hk [uq [H1 [H2 _]]]. injection H1 as <-. list_in Hk.
    repeat (destruct Hk as [<-|Hk]; [discriminate H2|]). destruct Hk.
  - exists crit77. cbn. split; [reflexivity|]. split; [reflexivity|]. split; [reflexivity|].
    split; [auto | discriminate].
Qed.

(** Two callers check, then both insert. *)
Theorem C08_one_insert_refuted :
  exists ls e,
    let s := conc_run Debug c_init ls in
    executed Debug ls s
    /\ (forall l, In l ls -> match l with LCall o => o = OpEnqueue e | _ => True end)
    /\ eq_criteria e = Some crit77
    /\ returned s 0 e 0 /\ returned s 1 e 1
    /\ map j_id (jobs_of (c_mem s)) = [0; 1].
Proof.
  exists [ LCall (OpEnqueue (ureq mail 0 5 crit77)); LCall (OpEnqueue (ureq mail 0 5 crit77));
           LRun 0 1; LRun 1 1; LRun 0 2; LRun 1 2; LRun 0 3; LRun 1 3; LRun 0 4; LRun 1 4 ],
         (ureq mail 0 5 crit77).
  cbn zeta. split; [split; [reflexivity | vm_compute; discriminate]|]. split.
  { intros l Hl. repeat (destruct Hl as [<-|Hl]; [exact I || reflexivity|]). destruct Hl. }
  split; [reflexivity|]. split; [eexists; vm_compute; reflexivity|].
  split; [eexists; vm_compute; reflexivity|]. vm_compute. reflexivity.
Qed.
Print Assumptions C08_one_insert_refuted.

(** * C29 No lost wake-up *)

(** A sleeping stream without a message whose executor has a waiting job: its timer fires by the
    time the job is due (or within 15 ms of its last look at the clock), or the job's wake-up is
    just about to be sent. *)
Theorem C29_no_lost_wake_up : forall p ls k seen read slept d sb j,
  let s := conc_run p c_init ls in
  m_paused (c_mem s) = false ->
  nth_error (c_streams s) k = Some (SWait seen read slept d) ->
  nth_error (m_subs (c_mem s)) k = Some sb -> sub_queue sb = [] ->
  In j (jobs_of (c_mem s)) -> waiting j -> j_executor j = sub_executor sb ->
  read + d <= Z.max (j_scheduled_at j) (read + 15 * 1000000)
  \/ about_to_notify s (sub_executor sb).
Proof. exact no_lost_wake_up_lemma. Qed.
Print Assumptions C29_no_lost_wake_up.

(** The wake-up that is about to be sent reaches the stream and makes it look again. *)
Theorem C29_wake_up_arrives : forall p s i id e drew now k seen read slept d sb,
  m_paused (c_mem s) = false ->
  nth_error (c_calls s) i = Some (mk_call (OpEnqueue e) (PcNotify id) drew) ->
  nth_error (c_streams s) k = Some (SWait seen read slept d) ->
  nth_error (m_subs (c_mem s)) k = Some sb -> sub_executor sb = eq_executor e ->
  nth_error (c_streams (conc_run p s [LRun i now; LRecv k])) k = Some SCheck.
Proof.
  intros p s i id e drew now k seen read slept d sb Hp Hi Hk Hsb Hex.
  destruct (notify_reaches p s i id e drew now k sb Hp Hi Hsb Hex) as [sb' [H1 H2]].
  cbn [conc_run].
  assert (Hs : c_streams (fst (conc_step p s (LRun i now))) = c_streams s)
    by (cbn [conc_step]; rewrite Hi; reflexivity).
  set (s1 := fst (conc_step p s (LRun i now))) in *. cbn [conc_step]. rewrite Hs, Hk, H1, H2.
  destruct (sub_queue sb ++ [eq_scheduled_at e]) eqn:E; [destruct (sub_queue sb); discriminate E|].
  cbn [fst c_streams]. rewrite set_nth_nth, Nat.eqb_refl, Hk. reflexivity.
Qed.
Print Assumptions C29_wake_up_arrives.

(** A receive takes the oldest message and no other; the other streams keep theirs. *)
Theorem C29_one_wake_up_each : forall p s k seen read slept d sb t q,
  nth_error (c_streams s) k = Some (SWait seen read slept d) ->
  nth_error (m_subs (c_mem s)) k = Some sb -> sub_queue sb = t :: q ->
  let s' := fst (conc_step p s (LRecv k)) in
  (forall i, nth_error (m_subs (c_mem s')) i
     = if Nat.eqb i k then Some (mk_sub (sub_executor sb) q) else nth_error (m_subs (c_mem s)) i)
  /\ (forall i, nth_error (c_streams s') i = if Nat.eqb i k then Some SCheck else nth_error (c_streams s) i)
  /\ m_jobs (c_mem s') = m_jobs (c_mem s) /\ c_calls s' = c_calls s
  /\ snd (conc_step p s (LRecv k)) = [].
Proof.
  intros p s k seen read slept d sb t q Hk Hsb Hq. cbn [conc_step]. rewrite Hk, Hsb, Hq.
  cbn [fst snd c_mem c_streams c_calls set_subs m_subs m_jobs].
  split; [|split; [|auto]]; intro i; rewrite set_nth_nth, Nat.eqb_sym; destruct (Nat.eqb_spec i k) as [->|]; auto.
  - rewrite Hsb. unfold sub_pop. rewrite Hq. reflexivity.
  - rewrite Hk. reflexivity.
Qed.
Print Assumptions C29_one_wake_up_each.

(** A stream goes to sleep on an empty store; then a job is pushed but not yet announced. *)
Definition ls_sleep : list label :=
  [ LSubscribe mail; LStream 0 1; LStream 0 2; LStream 0 3;
    LCall (OpEnqueue (req mail 0 5)); LRun 0 4; LRun 0 4; LRun 0 4 ].

Example C29_example :
  let s := conc_run Debug c_init ls_sleep in
  m_paused (c_mem s) = false
  /\ nth_error (c_streams s) 0 = Some (SWait None 2 3 30000000000)
  /\ nth_error (m_subs (c_mem s)) 0 = Some (mk_sub mail [])
  /\ In (new_job 4 0 (req mail 0 5)) (jobs_of (c_mem s)) /\ waiting (new_job 4 0 (req mail 0 5))
  /\ about_to_notify s mail
  /\ nth_error (c_streams (conc_run Debug s [LRun 0 5; LRecv 0])) 0 = Some SCheck.
Proof.
  cbn zeta. do 5 (split; [vm_compute; auto|]). split; [|vm_compute; reflexivity].
  exists (mk_call (OpEnqueue (req mail 0 5)) (PcNotify 0) (Some 0)), 0, (req mail 0 5). vm_compute. auto.
Qed.

(** Two jobs are announced while the stream sleeps: the first receive leaves the second message. *)
Example C29_one_wake_up_each_example :
  let s := conc_run Debug c_init (ls_sleep ++ [LRun 0 5; LCall (OpEnqueue (req mail 0 9)); LRun 1 6; LRun 1 6; LRun 1 6; LRun 1 7]) in
  nth_error (c_streams s) 0 = Some (SWait None 2 3 30000000000)
  /\ nth_error (m_subs (c_mem s)) 0 = Some (mk_sub mail [5; 9])
  /\ nth_error (m_subs (c_mem (fst (conc_step Debug s (LRecv 0))))) 0 = Some (mk_sub mail [9]).
Proof. vm_compute. auto. Qed.

(** * C30 Stream wake-up time *)

Theorem C30_sleep_bounded : forall p ls k seen read slept d,
  nth_error (c_streams (conc_run p c_init ls)) k = Some (SWait seen read slept d) ->
  0 <= d <= 30 * 1000000000
  /\ forall ts, seen = Some ts -> read + d <= Z.max ts (read + 15 * 1000000).
Proof. exact sleeps_lemma. Qed.
Print Assumptions C30_sleep_bounded.

(** The timer of a sleeping stream fires when the delay is over, and not before. *)
Theorem C30_timer : forall p s k seen read slept d sb now,
  nth_error (c_streams s) k = Some (SWait seen read slept d) ->
  nth_error (m_subs (c_mem s)) k = Some sb ->
  nth_error (c_streams (fst (conc_step p s (LStream k now)))) k
  = Some (if slept + d <=? now then SCheck else SWait seen read slept d).
Proof.
  intros p s k seen read slept d sb now Hk Hsb. cbn [conc_step]. rewrite Hk, Hsb.
  cbn [stream_step fst c_streams]. rewrite set_nth_nth, Nat.eqb_refl, Hk. reflexivity.
Qed.
Print Assumptions C30_timer.

(** What a stream sees before sleeping is the earliest waiting job of its executor. *)
Theorem C30_sees_earliest : forall p s k sb now t,
  nth_error (c_streams s) k = Some SCheck -> nth_error (m_subs (c_mem s)) k = Some sb ->
  nth_error (c_streams (fst (conc_step p s (LStream k now)))) k = Some (SGot t) ->
  (forall j, In j (jobs_of (c_mem s)) -> waiting j -> j_executor j = sub_executor sb ->
     exists ts, t = Some ts /\ ts <= j_scheduled_at j)
  /\ (forall ts, t = Some ts -> exists j, In j (jobs_of (c_mem s)) /\ waiting j
        /\ j_executor j = sub_executor sb /\ j_scheduled_at j = ts).
Proof.
  intros p s k sb now t Hk Hsb. cbn [conc_step]. rewrite Hk, Hsb. cbn [stream_step].
  destruct (next_available (sub_executor sb) (c_mem s)) as [t'|err|] eqn:E; cbn [fst c_streams];
    rewrite set_nth_nth, Nat.eqb_refl, Hk; intro H; try discriminate H. injection H as ->.
  apply next_available_spec in E. destruct E as [H1 H2]. unfold jobs_of. split.
  - intros j Hj. apply in_map_iff in Hj. destruct Hj as [kj [<- Hj]]. apply H1. exact Hj.
  - intros ts Hts. destruct (H2 ts Hts) as [kj [H3 H4]]. exists (kj_job kj). split; [apply in_map; exact H3 | exact H4].
Qed.
Print Assumptions C30_sees_earliest.

(** A stream that looks at the store when a job of its executor is due hands out a job. *)
Theorem C30_hands_out_when_due : forall p s k sb j now1 now2 now3,
  m_poisoned (c_mem s) = false -> counters_in_range (c_mem s) ->
  nth_error (c_streams s) k = Some SCheck -> nth_error (m_subs (c_mem s)) k = Some sb ->
  In j (jobs_of (c_mem s)) -> waiting j -> j_executor j = sub_executor sb ->
  j_scheduled_at j <= now2 -> j_scheduled_at j <= now3 ->
  exists j', nth_error (c_streams (conc_run p s [LStream k now1; LStream k now2; LStream k now3])) k
             = Some (SYield (Ok j'))
    /\ conc_trace p s [LStream k now1; LStream k now2; LStream k now3] = [EvHandOut k j'].
Proof. exact wakes_lemma. Qed.
Print Assumptions C30_hands_out_when_due.

(** When the lock of the store is poisoned, every look of a stream yields an error, again and again
    without a pause; a stream caught between its look and its load panics. *)
Theorem C30_poisoned : forall p s k sb now,
  m_poisoned (c_mem s) = true -> nth_error (m_subs (c_mem s)) k = Some sb ->
  (nth_error (c_streams s) k = Some SCheck ->
     nth_error (c_streams (fst (conc_step p s (LStream k now)))) k = Some (SYield (Err BadState))
     /\ nth_error (c_streams (conc_run p s [LStream k now; LStream k now])) k = Some SCheck
     /\ c_mem (conc_run p s [LStream k now; LStream k now]) = c_mem s)
  /\ (forall seen read d, nth_error (c_streams s) k = Some (SLoad seen read d) ->
        nth_error (c_streams (fst (conc_step p s (LStream k now)))) k = Some SDead
        /\ forall ls, nth_error (c_streams (conc_run p (fst (conc_step p s (LStream k now))) ls)) k = Some SDead).
Proof.
  intros p s k sb now Hp Hsb. split.
  - intro Hk. assert (E : conc_step p s (LStream k now)
      = (mk_c (c_mem s) (c_calls s) (set_nth k (SYield (Err BadState)) (c_streams s)), [])).
    { cbn [conc_step]. rewrite Hk, Hsb. cbn [stream_step]. unfold next_available, mem_query, matching_jobs.
      rewrite Hp. reflexivity. }
    cbn [conc_run]. rewrite E. cbn [fst c_streams conc_step c_mem c_calls].
    rewrite !set_nth_nth, !Nat.eqb_refl, Hk, Hsb. cbn [stream_step fst c_streams c_mem].
    rewrite !set_nth_nth, !Nat.eqb_refl, Hk. auto.
  - intros seen read d Hk. assert (E : nth_error (c_streams (fst (conc_step p s (LStream k now)))) k = Some SDead).
    { cbn [conc_step]. rewrite Hk, Hsb. cbn [stream_step]. unfold mem_load. rewrite Hp. cbn [fst c_streams].
      rewrite set_nth_nth, Nat.eqb_refl, Hk. reflexivity. }
    split; [exact E|]. intro ls. revert E. generalize (fst (conc_step p s (LStream k now))). clear.
    induction ls as [|l ls IH]; intros s E; [exact E|]. cbn [conc_run]. apply IH.
    destruct l as [o|i now|ex|k' now|k']; cbn [conc_step].
    + destruct o; exact E.
    + destruct (nth_error (c_calls s) i) as [c|]; [|exact E].
      destruct (call_step p i now (c_mem s) c) as [[m' c'] ev]. exact E.
    + cbn [fst c_streams]. rewrite nth_error_app1; [exact E|]. apply nth_error_Some. congruence.
    + destruct (nth_error (c_streams s) k') as [ph|] eqn:E1; [|exact E].
      destruct (nth_error (m_subs (c_mem s)) k') as [sb'|]; [|exact E].
      destruct (Nat.eqb_spec k' k) as [->|Hne].
      * rewrite E in E1. injection E1 as <-. cbn [stream_step fst c_streams]. rewrite set_nth_nth, Nat.eqb_refl, E. reflexivity.
      * destruct (stream_step p k' now (c_mem s) sb' ph) as [[m' ph'] ev]. cbn [fst c_streams].
        rewrite set_nth_nth. destruct (Nat.eqb_spec k' k); [congruence|exact E].
    + destruct (nth_error (c_streams s) k') as [ph|] eqn:E1; [|exact E].
      destruct ph; try exact E. destruct (nth_error (m_subs (c_mem s)) k') as [sb'|]; [|exact E].
      destruct (sub_queue sb'); [exact E|]. cbn [fst c_streams]. rewrite set_nth_nth.
      destruct (Nat.eqb_spec k' k) as [->|]; [congruence|exact E].
Qed.
Print Assumptions C30_poisoned.

(** A rule with an absurd age poisons the lock; one stream is about to look, one is about to load. *)
Example C30_poisoned_example :
  let s := conc_run Release c_init
    [ LSubscribe mail; LSubscribe mail; LCall (OpEnqueue (req mail 0 5)); LRun 0 4; LRun 0 4; LRun 0 4; LRun 0 4;
      LStream 1 9; LStream 1 9;
      LCall (OpPrune (mk_prune_spec Complete (MaxAge (-9223372036854775807 * 1000000)) (Except []))); LRun 1 9 ] in
  m_poisoned (c_mem s) = true /\ nth_error (c_streams s) 0 = Some SCheck
  /\ (exists d, nth_error (c_streams s) 1 = Some (SLoad (Some 5) 9 d)).
Proof. vm_compute. split; [reflexivity|]. split; [reflexivity|]. eexists. reflexivity. Qed.

Example C30_example :
  let s := conc_run Debug c_init (ls_sleep ++ [LRun 0 5; LRecv 0]) in
  m_poisoned (c_mem s) = false /\ counters_in_range (c_mem s)
  /\ nth_error (c_streams s) 0 = Some SCheck /\ nth_error (m_subs (c_mem s)) 0 = Some (mk_sub mail [])
  /\ In (new_job 4 0 (req mail 0 5)) (jobs_of (c_mem s))
  /\ conc_trace Debug s [LStream 0 6; LStream 0 7; LStream 0 8]
     = [EvHandOut 0 (after_hand_out 8 (new_job 4 0 (req mail 0 5)))].
Proof.
  cbn zeta. split; [reflexivity|]. split; [|vm_compute; auto].
  intros j Hj. list_in Hj. repeat (destruct Hj as [<-|Hj]; [cbn; lia|]). destruct Hj.
Qed.
