(** Theorems about whole interleaved executions. *)
From Verif Require Import Base Chrono Types TypesProofs Query Memory MemSpec QueryProofs MemProofs
  MemHist MemHist2 MemNotify MemConc MemConcProofs MemConcSpec.

Lemma conc_run_app p a : forall s b, conc_run p s (a ++ b) = conc_run p (conc_run p s a) b.
Proof. induction a as [|l a IH]; intros s b; cbn [app conc_run]; [reflexivity|]. apply IH. Qed.

Lemma conc_trace_app p a : forall s b,
  conc_trace p s (a ++ b) = conc_trace p s a ++ conc_trace p (conc_run p s a) b.
Proof.
  induction a as [|l a IH]; intros s b; cbn [app conc_run conc_trace]; [reflexivity|].
  rewrite IH, app_assoc. reflexivity.
Qed.

Lemma call_step_op p i now m c m' c' ev : call_step p i now m c = (m', c', ev) -> cl_op c' = cl_op c.
Proof.
  unfold call_step. destruct c as [o pc0 cid]; cbn [cl_pc cl_op cl_id]. intro Ec.
  destruct pc0 as [| |id0|id0|j|r].
  - destruct (is_enq o) eqn:Eo.
    + destruct o as [e| | | | | | | | | | | | |]; try discriminate Eo.
      destruct (eq_criteria e); [|injection Ec as <- <- <-; reflexivity].
      destruct (matching_jobs _ _) as [[|]| |]; injection Ec as <- <- <-; reflexivity.
    + assert (H' : (let (m', r) := mem_step p now m o in
                    (m', mk_call o (PcDone r) cid, [EvApply i now o r])) = (m', c', ev))
        by (destruct o; exact Ec || discriminate Eo).
      destruct (mem_step p now m o) as [m1 r]. injection H' as <- <- <-. reflexivity.
  - destruct o; injection Ec as <- <- <-; reflexivity.
  - destruct o; try (injection Ec as <- <- <-; reflexivity).
    destruct (m_poisoned m); injection Ec as <- <- <-; reflexivity.
  - destruct o; injection Ec as <- <- <-; reflexivity.
  - destruct o; try (injection Ec as <- <- <-; reflexivity).
    destruct (mem_update m j); injection Ec as <- <- <-; reflexivity.
  - destruct o; injection Ec as <- <- <-; reflexivity.
Qed.

Lemma enq_calls_step p s l :
  (enq_calls (c_calls (fst (conc_step p s l)))
   <= enq_calls (c_calls s) + length (filter starts_enqueue [l]))%nat.
Proof.
  destruct l as [o|i now|ex|k now|k]; cbn [conc_step].
  - unfold enq_calls. destruct o; cbn [fst c_calls]; rewrite ?filter_app, ?app_length; cbn; lia.
  - destruct (nth_error (c_calls s) i) as [c|] eqn:En; [|cbn [fst]; lia].
    destruct (call_step p i now (c_mem s) c) as [[m' c'] ev'] eqn:Ec. cbn [fst c_calls].
    apply nth_split in En. destruct En as [pre [post [El Ei]]]. rewrite El, <- Ei, set_nth_split.
    assert (Hop : cl_op c' = cl_op c).
    { eapply call_step_op. exact Ec. }
    unfold enq_calls. rewrite !filter_app. cbn. rewrite Hop, !app_length.
    destruct (is_enq (cl_op c)); cbn; lia.
  - cbn [fst c_calls]. lia.
  - destruct (nth_error (c_streams s) k); [|cbn [fst]; lia]. destruct (nth_error (m_subs (c_mem s)) k); [|cbn [fst]; lia].
    destruct (stream_step _ _ _ _ _ _) as [[? ?] ?]. cbn [fst c_calls]. lia.
  - destruct (nth_error (c_streams s) k) as [[| | | |t rd sl d| |]|]; try (cbn [fst]; lia).
    destruct (nth_error (m_subs (c_mem s)) k) as [sb|]; [|cbn [fst]; lia]. destruct (sub_queue sb); cbn [fst c_calls]; lia.
Qed.

Lemma enq_calls_run p ls : forall s,
  (enq_calls (c_calls (conc_run p s ls)) <= enq_calls (c_calls s) + length (filter starts_enqueue ls))%nat.
Proof.
  induction ls as [|l ls IH]; intro s; cbn [conc_run]; [cbn; lia|].
  pose proof (enq_calls_step p s l) as H1. pose proof (IH (fst (conc_step p s l))) as H2.
  cbn [filter] in *. destruct (starts_enqueue l); cbn [length] in *; lia.
Qed.

Lemma cid_inv_run p ls2 : forall ls1,
  new_enqueues (ls1 ++ ls2) <= 4294967296 ->
  cid_inv (conc_run p c_init ls1) (conc_trace p c_init ls1) ->
  cid_inv (conc_run p c_init (ls1 ++ ls2)) (conc_trace p c_init (ls1 ++ ls2)).
Proof.
  induction ls2 as [|l ls2 IH]; intros ls1 Hn Hi; [rewrite app_nil_r; exact Hi|].
  replace (ls1 ++ l :: ls2) with ((ls1 ++ [l]) ++ ls2) in * by (rewrite <- app_assoc; reflexivity).
  apply IH; [exact Hn|]. rewrite conc_run_app, conc_trace_app. cbn [conc_run conc_trace].
  rewrite app_nil_r. apply cid_inv_step; [exact Hi|].
  pose proof (enq_calls_run p ls1 c_init) as H. cbn [c_init c_calls enq_calls filter length] in H.
  unfold new_enqueues in Hn. rewrite !filter_app, !app_length in Hn.
  change (enq_calls []) with 0%nat in H. lia.
Qed.

Lemma cid_inv_init : cid_inv c_init [].
Proof. split; cbn; try constructor; try (intros ? []); reflexivity. Qed.

Lemma executed_inv p ls s : executed p ls s -> cid_inv s (conc_trace p c_init ls).
Proof. intros [-> H]. apply (cid_inv_run p ls []); [exact H | exact cid_inv_init]. Qed.

Lemma executed_app p a b s : executed p (a ++ b) s ->
  executed p a (conc_run p c_init a) /\ s = conc_run p (conc_run p c_init a) b.
Proof.
  intros [-> H]. rewrite conc_run_app. split; [|reflexivity]. split; [reflexivity|].
  unfold new_enqueues in *. rewrite filter_app, app_length in H. lia.
Qed.

Lemma inserted_ids tr : map j_id (inserted tr) = ev_inserted tr.
Proof.
  unfold inserted, ev_inserted. induction tr as [|ev tr IH]; cbn; [reflexivity|].
  rewrite map_app, IH. destruct ev; reflexivity.
Qed.

(** * C02 *)

Lemma conc_ids_lemma p ls s :
  executed p ls s ->
  NoDup (map j_id (jobs_of (c_mem s)))
  /\ NoDup (map j_id (inserted (conc_trace p c_init ls)))
  /\ (forall i1 i2 e1 e2 id, i1 <> i2 -> eq_criteria e1 = None -> eq_criteria e2 = None ->
        returned s i1 e1 id -> ~ returned s i2 e2 id).
Proof.
  intro H. apply executed_inv in H. destruct H as [_ _ Hnd Hpc Hin _ Hst _].
  split; [rewrite jobs_of_ids; exact Hst|]. split; [rewrite inserted_ids; exact Hin|].
  intros i1 i2 e1 e2 id Hne He1 He2 [d1 H1] [d2 H2].
  assert (Hd : forall i e d, eq_criteria e = None ->
     nth_error (c_calls s) i = Some (mk_call (OpEnqueue e) (PcDone (RId (Ok id))) d) -> d = Some id).
  { intros i e d He Hi. apply nth_error_In in Hi. rewrite Forall_forall in Hpc. apply Hpc in Hi.
    destruct Hi as [_ [Hi|[_ Hi]]]; [exact Hi|]. cbn in Hi. congruence. }
  pose proof (Hd _ _ _ He1 H1). pose proof (Hd _ _ _ He2 H2). subst d1 d2.
  revert Hnd H1 H2 Hne. generalize (c_calls s) as cs. clear.
  intros cs Hnd. revert i1 i2. induction cs as [|c cs IH]; intros [|i1] [|i2] H1 H2 Hne; cbn in *; try discriminate; try congruence.
  - injection H1 as ->. cbn in Hnd. inversion Hnd as [|? ? Hx]. apply Hx. apply in_flat_map.
    apply nth_error_In in H2. eexists. split; [exact H2|]. cbn. auto.
  - injection H2 as ->. cbn in Hnd. inversion Hnd as [|? ? Hx]. apply Hx. apply in_flat_map.
    apply nth_error_In in H1. eexists. split; [exact H1|]. cbn. auto.
  - apply (IH ltac:(destruct (cl_id c); cbn in Hnd; [inversion Hnd; assumption | exact Hnd]) i1 i2 H1 H2). lia.
Qed.

(** * C03 *)

Lemma conc_keeps p ls2 : forall ls1 id,
  new_enqueues (ls1 ++ ls2) <= 4294967296 ->
  In id (ids (m_jobs (c_mem (conc_run p c_init ls1)))) ->
  In id (ids (m_jobs (c_mem (conc_run p c_init (ls1 ++ ls2)))))
  \/ exists a l b i now ps j, ls2 = a ++ l :: b
       /\ snd (conc_step p (conc_run p c_init (ls1 ++ a)) l) = [EvApply i now (OpPrune ps) (RUnit (Ok tt))]
       /\ In j (jobs_of (c_mem (conc_run p c_init (ls1 ++ a)))) /\ j_id j = id /\ in_scope ps j.
Proof.
  induction ls2 as [|l ls2 IH]; intros ls1 id Hn Hid; [rewrite app_nil_r; auto|].
  assert (He : executed p (ls1 ++ l :: ls2) (conc_run p c_init (ls1 ++ l :: ls2))) by (split; auto).
  apply executed_app in He. destruct He as [He _]. apply executed_inv in He.
  set (s := conc_run p c_init ls1) in *.
  destruct (conc_step p s l) as [s' ev] eqn:E.
  assert (Hs' : conc_run p c_init (ls1 ++ [l]) = s').
  { rewrite conc_run_app. cbn [conc_run]. fold s. rewrite E. reflexivity. }
  assert (Hkeep : In id (ids (m_jobs (c_mem s')))
     \/ exists i now ps j, ev = [EvApply i now (OpPrune ps) (RUnit (Ok tt))]
          /\ In j (jobs_of (c_mem s)) /\ j_id j = id /\ in_scope ps j).
  { pose proof (conc_step_move _ _ _ _ _ E) as Hm. destruct Hm as [Hj _ _ _|now o r Ho Hst Hev|i now id' e _ Hst _].
    - left. rewrite Hj. exact Hid.
    - pose proof (mem_step_jstep p now (c_mem s) o (ci_store _ _ He)) as Hj. rewrite Hst in Hj.
      destruct (ids_in_inv _ _ Hid) as [k [Hk1 Hk2]].
      destruct (jstep_keeps _ _ _ _ _ _ _ Hj Hk1) as [H|[ps [-> [-> H]]]]; [left; congruence|].
      right. inversion Hev; subst. exists i, now, ps, (kj_job k). repeat split; auto; try apply H.
      unfold jobs_of. apply in_map. exact Hk1.
    - left. rewrite Hst. cbn. unfold ids in *. rewrite map_app. apply in_or_app. auto. }
  destruct Hkeep as [Hkeep|[i [now [ps [j [-> [H1 [H2 H3]]]]]]]].
  - replace (ls1 ++ l :: ls2) with ((ls1 ++ [l]) ++ ls2) in * by (rewrite <- app_assoc; reflexivity).
    rewrite <- Hs' in Hkeep. destruct (IH (ls1 ++ [l]) id Hn Hkeep) as [H|H]; [left; exact H|].
    destruct H as [a [l' [b [i [now [ps [j [-> [H1 H2]]]]]]]]].
    right. exists (l :: a), l', b, i, now, ps, j. split; [reflexivity|].
    replace (ls1 ++ l :: a) with ((ls1 ++ [l]) ++ a) by (rewrite <- app_assoc; reflexivity). auto.
  - right. exists [], l, ls2, i, now, ps, j. rewrite app_nil_r. fold s. rewrite E. auto.
Qed.

(** A returned id was in the store at some point. *)
Definition got_id (c : call) (id : Z) : Prop :=
  cl_pc c = PcNotify id \/ (cl_pc c = PcDone (RId (Ok id)) /\ is_enq (cl_op c) = true).

Lemma returned_was_stored p ls :
  new_enqueues ls <= 4294967296 ->
  forall c id, In c (c_calls (conc_run p c_init ls)) -> got_id c id ->
  exists ls1 ls2, ls = ls1 ++ ls2 /\ In id (ids (m_jobs (c_mem (conc_run p c_init ls1)))).
Proof.
  induction ls as [|l ls IH] using rev_ind; intros Hn c id Hc Hg; [destruct Hc|].
  assert (He : executed p (ls ++ [l]) (conc_run p c_init (ls ++ [l]))) by (split; auto).
  apply executed_app in He. destruct He as [He _]. pose proof (executed_inv _ _ _ He) as Hi.
  assert (Hprev : In c (c_calls (conc_run p c_init ls)) ->
     exists ls1 ls2, ls ++ [l] = ls1 ++ ls2 /\ In id (ids (m_jobs (c_mem (conc_run p c_init ls1))))).
  { intro H. destruct (IH (proj2 He) c id H Hg) as [a [b [-> H2]]]. exists a, (b ++ [l]).
    rewrite app_assoc. auto. }
  assert (Hnow : In id (ids (m_jobs (c_mem (conc_run p c_init (ls ++ [l]))))) ->
     exists ls1 ls2, ls ++ [l] = ls1 ++ ls2 /\ In id (ids (m_jobs (c_mem (conc_run p c_init ls1))))).
  { intro H. exists (ls ++ [l]), []. rewrite app_nil_r. auto. }
  assert (Hprev' : forall c0, In c0 (c_calls (conc_run p c_init ls)) -> got_id c0 id ->
     exists ls1 ls2, ls ++ [l] = ls1 ++ ls2 /\ In id (ids (m_jobs (c_mem (conc_run p c_init ls1))))).
  { intros c0 H Hg0. destruct (IH (proj2 He) c0 id H Hg0) as [a [b [-> H2]]]. exists a, (b ++ [l]).
    rewrite app_assoc. auto. }
  rewrite conc_run_app in Hc, Hnow. cbn [conc_run] in Hc, Hnow.
  set (s := conc_run p c_init ls) in *.
  destruct l as [o|i now|ex|k now|k]; cbn [conc_step] in *.
  - assert (Hq : In c (c_calls s ++ [mk_call o PcStart None])).
    { destruct o; cbn [fst c_calls] in Hc; try exact Hc; apply in_or_app; left; exact Hc. }
    apply in_app_or in Hq. destruct Hq as [Hq|[<-|[]]]; [auto|]. destruct Hg as [Hg|[Hg _]]; discriminate Hg.
  - destruct (nth_error (c_calls s) i) as [c0|] eqn:En; [|auto].
    destruct (call_step p i now (c_mem s) c0) as [[m' c'] ev'] eqn:Ec. cbn [fst c_calls c_mem] in *.
    assert (Hin0 : In c0 (c_calls s)) by (eapply nth_error_In; exact En).
    apply nth_split in En. destruct En as [pre [post [El Ei]]].
    rewrite El, <- Ei, set_nth_split in Hc. apply in_mid in Hc.
    destruct Hc as [->|Hc]; [|apply Hprev; rewrite El; apply in_mid; auto].
    assert (Hold : got_id c0 id \/ In id (ids (m_jobs m'))).
    { clear - Ec Hg. unfold call_step, got_id in *. destruct c0 as [o pc0 cid]; cbn [cl_pc cl_op cl_id] in *.
      destruct pc0 as [| |id0|id0|j|r].
      - destruct (is_enq o) eqn:Eo.
        + destruct o as [e| | | | | | | | | | | | |]; try discriminate Eo.
          destruct (eq_criteria e).
          * destruct (matching_jobs _ _) as [[|]| |]; injection Ec as <- <- <-; destruct Hg as [Hg|[Hg _]]; discriminate Hg.
          * injection Ec as <- <- <-; destruct Hg as [Hg|[Hg _]]; discriminate Hg.
        + assert (H' : (let (m', r) := mem_step p now (c_mem s) o in
                    (m', mk_call o (PcDone r) cid, [EvApply i now o r])) = (m', c', ev'))
            by (destruct o; exact Ec || discriminate Eo).
          destruct (mem_step p now (c_mem s) o) as [m1 r]. injection H' as <- <- <-. cbn in Hg.
          destruct Hg as [Hg|[_ Hg]]; [discriminate Hg | congruence].
      - destruct o; injection Ec as <- <- <-; destruct Hg as [Hg|[Hg _]]; discriminate Hg.
      - destruct o; try (injection Ec as <- <- <-; destruct Hg as [Hg|[Hg _]]; discriminate Hg).
        destruct (m_poisoned (c_mem s)); injection Ec as <- <- <-; cbn in Hg;
          destruct Hg as [Hg|[Hg _]]; try discriminate Hg.
        injection Hg as ->. right. cbn. unfold ids. rewrite map_app. apply in_or_app. right. left. reflexivity.
      - destruct o; injection Ec as <- <- <-; try (destruct Hg as [Hg|[Hg _]]; [left; left; exact Hg|discriminate Hg]).
        cbn in Hg. destruct Hg as [Hg|[Hg _]]; [discriminate Hg|]. injection Hg as ->. left. left. reflexivity.
      - destruct o; try (injection Ec as <- <- <-; destruct Hg as [Hg|[Hg _]]; discriminate Hg).
        destruct (m_poisoned (c_mem s)) eqn:Hp.
        { unfold mem_update, with_job in Ec. rewrite Hp in Ec. injection Ec as <- <- <-. cbn in Hg.
          destruct Hg as [Hg|[Hg _]]; discriminate Hg. }
        pose proof (with_job_spec (c_mem s) (j_id j) (fun _ => Some j) true Hp) as Hw.
        unfold mem_update in Ec. destruct (with_job _ _ _ _) as [m1 [u|err|]]; injection Ec as <- <- <-; cbn in Hg;
          destruct Hg as [Hg|[Hg _]]; try discriminate Hg. injection Hg as <-. right.
        destruct Hw as [pre0 [k [post0 [j' [H1 [H2 [H3 [H4 ->]]]]]]]]. injection H4 as <-.
        cbn zeta. rewrite notify_jobs. cbn. unfold ids. rewrite map_app. apply in_or_app. right. left. reflexivity.
      - destruct o; injection Ec as <- <- <-; left; exact Hg. }
    destruct Hold as [Hold|Hold]; [eapply Hprev'; eassumption | auto].
  - auto.
  - destruct (nth_error (c_streams s) k); [|auto]. destruct (nth_error (m_subs (c_mem s)) k); [|auto].
    destruct (stream_step _ _ _ _ _ _) as [[? ?] ?]. auto.
  - destruct (nth_error (c_streams s) k) as [[| | | |t rd sl d| |]|]; auto.
    destruct (nth_error (m_subs (c_mem s)) k) as [sb|]; auto. destruct (sub_queue sb); auto.
Qed.

Lemma conc_never_lost p ls s i e id :
  executed p ls s -> returned s i e id ->
  In id (map j_id (jobs_of (c_mem s)))
  \/ exists a l b i now ps j, ls = a ++ l :: b
       /\ snd (conc_step p (conc_run p c_init a) l) = [EvApply i now (OpPrune ps) (RUnit (Ok tt))]
       /\ In j (jobs_of (c_mem (conc_run p c_init a))) /\ j_id j = id /\ in_scope ps j.
Proof.
  intros [-> Hn] [d Hr]. apply nth_error_In in Hr.
  destruct (returned_was_stored p ls Hn _ id Hr) as [a [b [-> Hs]]]; [right; auto|].
  destruct (conc_keeps p b a id Hn Hs) as [H|H]; [left; rewrite jobs_of_ids; exact H|].
  right. destruct H as [a' [l [b' [i' [now [ps [j [-> [H1 H2]]]]]]]]].
  exists (a ++ a'), l, b', i', now, ps, j. rewrite <- app_assoc. auto.
Qed.

(** * C06 *)

Lemma one_event p s l : snd (conc_step p s l) = [] \/ exists ev, snd (conc_step p s l) = [ev].
Proof.
  destruct (conc_step p s l) as [s' ev] eqn:E. cbn. apply conc_step_move in E.
  destruct E as [_ _ _ ->|now o r _ _ H|i now id e _ _ ->]; eauto.
  destruct H; eauto.
Qed.

Lemma trace_split p ls : forall s a x rest,
  conc_trace p s ls = a ++ x :: rest ->
  exists ls1 l ls2, ls = ls1 ++ l :: ls2 /\ conc_trace p s ls1 = a
    /\ snd (conc_step p (conc_run p s ls1) l) = [x]
    /\ conc_trace p (fst (conc_step p (conc_run p s ls1) l)) ls2 = rest.
Proof.
  induction ls as [|l ls IH]; intros s a x rest H; cbn [conc_trace] in H; [destruct a; discriminate H|].
  destruct (one_event p s l) as [E|[ev E]]; rewrite E in H; cbn [app] in H.
  - destruct (IH _ _ _ _ H) as [ls1 [l' [ls2 [-> [H1 [H2 H3]]]]]].
    exists (l :: ls1), l', ls2. cbn [conc_run conc_trace]. rewrite E. auto.
  - destruct a as [|y a]; cbn [app] in H; injection H as -> H.
    + exists [], l, ls. cbn [conc_run conc_trace]. auto.
    + destruct (IH _ _ _ _ H) as [ls1 [l' [ls2 [-> [H1 [H2 H3]]]]]].
      exists (l :: ls1), l', ls2. cbn [conc_run conc_trace]. rewrite E, H1. auto.
Qed.

Lemma inv_drawn s tr id : cid_inv s tr -> In id (ev_inserted tr) -> exists n, drawn n id.
Proof.
  intros Hi Hid. destruct (ci_owner _ _ Hi id Hid) as [c [H1 [H2 _]]]. eexists. apply (ci_drawn _ _ Hi).
  apply in_flat_map. exists c. rewrite H2. cbn. auto.
Qed.

Lemma step_none_waiting p s tr l id s' ev :
  cid_inv s tr -> cid_inv s' (tr ++ ev) -> conc_step p s l = (s', ev) -> In id (ev_inserted tr) ->
  none_waiting id (m_jobs (c_mem s)) ->
  (exists x, In x ev /\ (release_of id x \/ write_back_of id x))
  \/ (none_waiting id (m_jobs (c_mem s')) /\ forall x, In x ev -> ~ hand_out_of id x).
Proof.
  intros Hi Hi' E Hid Hw. apply conc_step_move in E.
  destruct E as [Hj _ _ ->|now o r Ho Hst Hev|i now id' e _ Hst Hev].
  - right. rewrite Hj. split; [exact Hw|]. intros x [].
  - pose proof (mem_step_jstep p now (c_mem s) o (ci_store _ _ Hi)) as Hj. rewrite Hst in Hj.
    destruct (inv_drawn _ _ _ Hi Hid) as [n Hd].
    assert (Hdec : releases id o \/ ~ releases id o)
      by (destruct o; cbn; auto; match goal with |- ?a = ?b \/ _ => destruct (Z.eq_dec a b) end; auto).
    destruct Hdec as [Hrel|Hrel].
    + assert (Hcase : r = RUnit (Ok tt) \/ m_jobs (c_mem s') = m_jobs (c_mem s)).
      { destruct Hj; auto; cbn in Hrel; contradiction. }
      destruct Hcase as [->|Hsame].
      * left. inversion Hev; subst; cbn in Hrel; try contradiction.
        -- eexists. split; [left; reflexivity|]. left. exact Hrel.
        -- eexists. split; [left; reflexivity|]. right. exact Hrel.
      * right. rewrite Hsame. split; [exact Hw|].
        inversion Hev; subst; intros x Hx; try (destruct Hx as [<-|[]]; cbn in *; tauto); destruct Hx.
    + right. destruct (jstep_none_waiting p now o r _ _ id n Hj) as [H1 H2]; auto.
      * intros e i -> . discriminate Ho.
      * exact (ci_store _ _ Hi).
      * exact (ci_store _ _ Hi').
      * split; [exact H1|]. inversion Hev; subst; intros x Hx; try (destruct Hx as [<-|[]]; cbn in *; auto; lia);
          destruct Hx.
  - right. split; [|rewrite Hev; intros x [<-|[]]; cbn; auto].
    rewrite Hst. cbn. intros k Hk Hkid. apply in_app_or in Hk. destruct Hk as [Hk|[<-|[]]]; [auto|].
    exfalso. cbn in Hkid. subst id'. pose proof (ci_ins _ _ Hi') as Hnd. rewrite ev_inserted_app, Hev in Hnd.
    cbn in Hnd. apply NoDup_remove_2 in Hnd. rewrite app_nil_r in Hnd. contradiction.
Qed.

Lemma between_lemma p ls2 : forall ls1 id a x rest,
  new_enqueues (ls1 ++ ls2) <= 4294967296 ->
  In id (ev_inserted (conc_trace p c_init ls1)) ->
  none_waiting id (m_jobs (c_mem (conc_run p c_init ls1))) ->
  conc_trace p (conc_run p c_init ls1) ls2 = a ++ x :: rest -> hand_out_of id x ->
  exists y, In y a /\ (release_of id y \/ write_back_of id y).
Proof.
  induction ls2 as [|l ls2 IH]; intros ls1 id a x rest Hn Hid Hw Ht Hx; [destruct a; discriminate Ht|].
  replace (ls1 ++ l :: ls2) with ((ls1 ++ [l]) ++ ls2) in Hn by (rewrite <- app_assoc; reflexivity).
  assert (Hx1 : executed p ((ls1 ++ [l]) ++ ls2) (conc_run p c_init ((ls1 ++ [l]) ++ ls2))) by (split; auto).
  apply executed_app in Hx1. destruct Hx1 as [Hx1 _]. pose proof (executed_inv _ _ _ Hx1) as Hi'.
  apply executed_app in Hx1. destruct Hx1 as [Hx1 _]. pose proof (executed_inv _ _ _ Hx1) as Hi.
  rewrite conc_run_app, conc_trace_app in Hi'. cbn [conc_run conc_trace] in Hi'. rewrite app_nil_r in Hi'.
  cbn [conc_trace] in Ht.
  destruct (conc_step p (conc_run p c_init ls1) l) as [s' ev] eqn:E. cbn [fst snd] in *.
  assert (Hs' : conc_run p c_init (ls1 ++ [l]) = s').
  { rewrite conc_run_app. cbn [conc_run]. rewrite E. reflexivity. }
  assert (Htr' : conc_trace p c_init (ls1 ++ [l]) = conc_trace p c_init ls1 ++ ev).
  { rewrite conc_trace_app. cbn [conc_trace]. rewrite E. cbn. rewrite app_nil_r. reflexivity. }
  assert (Hcont : forall a', conc_trace p s' ls2 = a' ++ x :: rest -> none_waiting id (m_jobs (c_mem s')) ->
     exists y, In y a' /\ (release_of id y \/ write_back_of id y)).
  { intros a' Ha' Hw'. apply (IH (ls1 ++ [l]) id a' x rest Hn); rewrite ?Hs', ?Htr'; auto.
    rewrite ev_inserted_app. apply in_or_app. auto. }
  pose proof (one_event p (conc_run p c_init ls1) l) as Hone. rewrite E in Hone. cbn [snd] in Hone.
  pose proof (step_none_waiting _ _ _ _ id _ _ Hi Hi' E Hid Hw) as Hstep.
  destruct Hone as [->|[y ->]]; cbn [app] in Ht.
  - destruct Hstep as [[y [[] _]]|[Hw' _]]. auto.
  - destruct a as [|y' a]; cbn [app] in Ht; injection Ht as <- Ht.
    + destruct Hstep as [[z [[<-|[]] Hz]]|[_ Hno]].
      * exfalso. destruct y; cbn in *; tauto.
      * exfalso. apply (Hno y); [left; reflexivity|exact Hx].
    + destruct Hstep as [[z [[<-|[]] Hz]]|[Hw' _]].
      * exists y. split; [left; reflexivity | exact Hz].
      * destruct (Hcont a Ht Hw') as [z [H1 H2]]. exists z. split; [right; exact H1 | exact H2].
Qed.

Lemma jstep_closes p now o r l l' id :
  jstep p now o r l l' ->
  match o, r with
  | OpLoad _, RJob (Ok (Some j)) => j_id j = id
  | (OpComplete i | OpDiscarded i _ | OpCancelled i _), RUnit (Ok _) => i = id
  | _, _ => False
  end ->
  exists k, In k l' /\ j_id (kj_job k) = id /\ ~ waiting (kj_job k).
Proof.
  intros Hj Hc.
  destruct Hj as [o r l H|e i l H|e pre k0 post H H0|ex pre k0 post j' H H0|o i pre k0 post j' H H0 H1|ps l l' H];
    try contradiction.
  - exfalso. destruct o; try contradiction; destruct r as [?|[?|?|]|[[?|]|?|]|?]; contradiction.
  - exists (mk_kjob j' (kj_key k0)). split; [apply in_mid; auto|]. split; [exact Hc|]. cbn.
    unfold job_executing in H0. destruct (i32_arith p _); [|discriminate]. injection H0 as <-.
    unfold waiting. cbn. intuition discriminate.
  - exists (mk_kjob j' (kj_key k0)). split; [apply in_mid; auto|]. cbn.
    pose proof (one_effect_id _ _ _ _ _ _ H H0) as Hid.
    destruct H; try contradiction; subst; (split; [exact Hid | unfold waiting; cbn; intuition discriminate]).
Qed.

Lemma closes_none_waiting p s tr l id s' ev x :
  cid_inv s tr -> cid_inv s' (tr ++ ev) -> conc_step p s l = (s', ev) -> In x ev -> closes id x ->
  In id (ev_inserted (tr ++ ev)) /\ none_waiting id (m_jobs (c_mem s')).
Proof.
  intros Hi Hi' E Hx Hc.
  assert (Hin : forall k, In k (m_jobs (c_mem s')) -> j_id (kj_job k) = id -> ~ waiting (kj_job k) ->
     In id (ev_inserted (tr ++ ev)) /\ none_waiting id (m_jobs (c_mem s'))).
  { intros k Hk Hid Hnw. split.
    - apply (ci_sub _ _ Hi'). rewrite <- Hid. apply ids_in. exact Hk.
    - intros k' Hk' Hid'. replace k' with k; [exact Hnw|].
      apply in_split in Hk. destruct Hk as [pre [post Hl]]. pose proof (ci_store _ _ Hi') as Hnd. rewrite Hl in *.
      apply in_mid in Hk'. destruct Hk' as [->|Hk']; [reflexivity|].
      exfalso. apply (nodup_other (fun k => j_id (kj_job k)) pre k post k' Hnd Hk'). congruence. }
  apply conc_step_move in E. destruct E as [_ _ _ ->|now o r Ho Hst Hev|i now id' e _ _ ->];
    [destruct Hx| |destruct Hx as [<-|[]]; destruct Hc].
  pose proof (mem_step_jstep p now (c_mem s) o (ci_store _ _ Hi)) as Hj. rewrite Hst in Hj.
  apply jstep_closes with (id := id) in Hj.
  - destruct Hj as [k [K1 [K2 K3]]]. exact (Hin k K1 K2 K3).
  - destruct Hev as [i o r|k ex j|ex r Hr|i j r]; [| |destruct Hx|];
      destruct Hx as [<-|[]]; cbn in Hc; try contradiction; [|exact Hc].
    destruct o; try contradiction; destruct r as [|[u| |]| |]; try contradiction; exact Hc.
Qed.

Lemma reopened_lemma p ls s a x b y c id :
  executed p ls s -> conc_trace p c_init ls = a ++ x :: b ++ y :: c ->
  closes id x -> hand_out_of id y ->
  exists z, In z b /\ (release_of id z \/ write_back_of id z).
Proof.
  intros He Ht Hx Hy. destruct (trace_split p ls c_init a x (b ++ y :: c) Ht) as [ls1 [l [ls2 [-> [H1 [H2 H3]]]]]].
  replace (ls1 ++ l :: ls2) with ((ls1 ++ [l]) ++ ls2) in He by (rewrite <- app_assoc; reflexivity).
  pose proof (proj2 He) as Hn.
  apply executed_app in He. destruct He as [He _]. pose proof (executed_inv _ _ _ He) as Hi'.
  apply executed_app in He. destruct He as [He _]. pose proof (executed_inv _ _ _ He) as Hi.
  destruct (conc_step p (conc_run p c_init ls1) l) as [s' ev] eqn:E. cbn [fst snd] in *. subst ev.
  assert (Hs' : conc_run p c_init (ls1 ++ [l]) = s').
  { rewrite conc_run_app. cbn [conc_run]. rewrite E. reflexivity. }
  assert (Htr' : conc_trace p c_init (ls1 ++ [l]) = conc_trace p c_init ls1 ++ [x]).
  { rewrite conc_trace_app. cbn [conc_trace]. rewrite E. reflexivity. }
  rewrite Hs', Htr' in Hi'.
  destruct (closes_none_waiting _ _ _ _ id _ _ x Hi Hi' E ltac:(left; reflexivity) Hx) as [K1 K2].
  apply (between_lemma p ls2 (ls1 ++ [l]) id b y c Hn); rewrite ?Hs', ?Htr'; auto.
Qed.

(** * Calls and write-backs *)

Lemma calls_step p s l c :
  In c (c_calls (fst (conc_step p s l))) ->
  (exists c0, In c0 (c_calls s) /\ cl_op c = cl_op c0) \/ l = LCall (cl_op c).
Proof.
  assert (Hsame : forall s', c_calls s' = c_calls s -> In c (c_calls s') ->
     (exists c0, In c0 (c_calls s) /\ cl_op c = cl_op c0) \/ l = LCall (cl_op c))
    by (intros s' -> H; eauto).
  destruct l as [o|i now|ex|k now|k]; cbn [conc_step].
  - destruct o; try (apply Hsame; reflexivity); cbn [fst c_calls]; intro H; apply in_app_or in H;
      (destruct H as [H|[<-|[]]]; [eauto | auto]).
  - destruct (nth_error (c_calls s) i) as [c0|] eqn:En; [|apply Hsame; reflexivity].
    destruct (call_step p i now (c_mem s) c0) as [[m' c'] ev'] eqn:Ec. cbn [fst c_calls]. intro H. left.
    apply call_step_op in Ec.
    assert (Hc : In c0 (c_calls s)) by (eapply nth_error_In; exact En).
    apply nth_split in En. destruct En as [pre [post [El Ei]]].
    rewrite <- Ei in H. rewrite El in H at 1. rewrite set_nth_split in H. apply in_mid in H.
    destruct H as [->|H]; [eauto|]. exists c. split; [rewrite El; apply in_mid; auto | reflexivity].
  - apply Hsame. reflexivity.
  - destruct (nth_error (c_streams s) k); [|apply Hsame; reflexivity].
    destruct (nth_error (m_subs (c_mem s)) k); [|apply Hsame; reflexivity].
    destruct (stream_step _ _ _ _ _ _) as [[? ?] ?]. apply Hsame. reflexivity.
  - destruct (nth_error (c_streams s) k) as [[| | | |t rd sl d| |]|]; try (apply Hsame; reflexivity).
    destruct (nth_error (m_subs (c_mem s)) k) as [sb|]; [|apply Hsame; reflexivity].
    destruct (sub_queue sb); apply Hsame; reflexivity.
Qed.

Lemma calls_run p ls : forall s c,
  In c (c_calls (conc_run p s ls)) ->
  (exists c0, In c0 (c_calls s) /\ cl_op c = cl_op c0) \/ In (LCall (cl_op c)) ls.
Proof.
  induction ls as [|l ls IH]; intros s c H; cbn [conc_run] in H; [eauto|].
  destruct (IH _ _ H) as [[c0 [H1 H2]]|H1]; [|right; right; exact H1].
  destruct (calls_step p s l c0 H1) as [[c1 [H3 H4]]|H3].
  - left. exists c1. split; [exact H3 | congruence].
  - right. left. rewrite H2. exact H3.
Qed.

Lemma write_back_call p s l i j r :
  snd (conc_step p s l) = [EvWriteBack i j r] ->
  exists now c, l = LRun i now /\ nth_error (c_calls s) i = Some c /\ cl_pc c = PcWriteBack j.
Proof.
  destruct l as [o|i0 now|ex|k now|k]; cbn [conc_step].
  - destruct o; discriminate.
  - destruct (nth_error (c_calls s) i0) as [c|] eqn:En; [|discriminate].
    destruct (call_step p i0 now (c_mem s) c) as [[m' c'] ev'] eqn:Ec. cbn [snd]. intros ->.
    unfold call_step in Ec. destruct c as [o pc0 cid]; cbn [cl_pc cl_op cl_id] in *.
    destruct pc0 as [| |id0|id0|j0|r0].
    + destruct (is_enq o) eqn:Eo.
      * destruct o as [e| | | | | | | | | | | | |]; try discriminate Eo.
        destruct (eq_criteria e); [|discriminate]. destruct (matching_jobs _ _) as [[|]| |]; discriminate.
      * assert (H' : (let (m', r) := mem_step p now (c_mem s) o in
                    (m', mk_call o (PcDone r) cid, [EvApply i0 now o r])) = (m', c', [EvWriteBack i j r]))
        by (destruct o; exact Ec || discriminate Eo).
        destruct (mem_step p now (c_mem s) o) as [m1 r1]. discriminate.
    + destruct o; discriminate.
    + destruct o; try discriminate. destruct (m_poisoned _); discriminate.
    + destruct o; discriminate.
    + destruct o; try discriminate. destruct (mem_update (c_mem s) j0) as [m1 r1].
      injection Ec as _ _ <- <- _. eauto.
    + destruct o; discriminate.
  - discriminate.
  - destruct (nth_error (c_streams s) k) as [ph|]; [|discriminate].
    destruct (nth_error (m_subs (c_mem s)) k) as [sb|]; [|discriminate].
    destruct (stream_step p k now (c_mem s) sb ph) as [[m' ph'] ev'] eqn:E. cbn [snd]. intros ->.
    unfold stream_step in E. destruct ph; try discriminate.
    + destruct (next_available _ _); discriminate.
    + destruct (mem_load _ _ _ _) as [m1 [[j1|]|err|]]; discriminate.
  - destruct (nth_error (c_streams s) k) as [[| | | |t rd sl d| |]|]; try discriminate.
    destruct (nth_error (m_subs (c_mem s)) k) as [sb|]; [|discriminate]. destruct (sub_queue sb); discriminate.
Qed.

Lemma no_write_back p ls s i j r :
  executed p ls s -> (forall e, In (LCall (OpEnqueue e)) ls -> eq_criteria e = None) ->
  ~ In (EvWriteBack i j r) (conc_trace p c_init ls).
Proof.
  intros He Hc Hin. apply in_split in Hin. destruct Hin as [a [b Ht]].
  destruct (trace_split p ls c_init a _ b Ht) as [ls1 [l [ls2 [-> [H1 [H2 H3]]]]]].
  apply executed_app in He. destruct He as [He _]. apply executed_inv in He.
  apply write_back_call in H2. destruct H2 as [now [c [-> [H4 H5]]]]. apply nth_error_In in H4.
  pose proof (ci_pc _ _ He) as Hpc. rewrite Forall_forall in Hpc. specialize (Hpc c H4). destruct Hpc as [_ Hpc].
  rewrite H5 in Hpc. destruct Hpc as [_ Hcr].
  destruct (calls_run p ls1 c_init c H4) as [[c0 [[] _]]|Hl].
  destruct (cl_op c) as [e| | | | | | | | | | | | |]; try contradiction. apply Hcr. apply Hc.
  apply in_or_app. auto.
Qed.

(** * Enqueues of a working backend succeed *)

Lemma enqueue_ok p now m e :
  m_poisoned m = false ->
  exists m' id, mem_step p now m (OpEnqueue e) = (m', RId (Ok id)) /\ m_poisoned m' = false.
Proof.
  intro Hp. cbn [mem_step].
  assert (Hins : exists m' id, (let (m', r) := insert_new_job now m e in (m', RId r)) = (m', RId (Ok id)) /\ m_poisoned m' = false).
  { destruct (insert_new_job_ok now m e Hp) as [m' [-> [_ [_ [H _]]]]]. eauto. }
  unfold mem_enqueue. destruct (eq_criteria e) as [uq|]; [|exact Hins].
  unfold insert_unique_job, matching_jobs. rewrite Hp.
  destruct (filter (enqueuable_matches now e) (m_jobs m)) as [|k rest] eqn:Ef; [exact Hins|].
  assert (Hk : In k (m_jobs m)).
  { assert (H : In k (filter (enqueuable_matches now e) (m_jobs m))) by (rewrite Ef; left; reflexivity).
    apply filter_In in H. tauto. }
  unfold mem_update. pose proof (with_job_spec m (j_id (job_replace e (kj_job k)))
    (fun _ => Some (job_replace e (kj_job k))) true Hp) as H.
  assert (Hid : j_id (job_replace e (kj_job k)) = j_id (kj_job k)).
  { rewrite job_replace_spec. apply after_conflict_id. }
  destruct (with_job m _ _ true) as [m' [u|err|]].
  - destruct H as [pre [k1 [post [j' [_ [_ [_ [_ ->]]]]]]]]. do 2 eexists. split; [reflexivity|].
    cbn zeta. rewrite notify_poisoned. exact Hp.
  - exfalso. destruct H as [_ [_ H]]. apply (H k Hk). symmetry. exact Hid.
  - exfalso. destruct H as [_ [pre [k1 [post [_ [_ [_ H]]]]]]]. discriminate H.
Qed.
