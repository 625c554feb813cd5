(** Lemmas about interleaved executions of the in-memory backend. *)
From Coq Require Import Permutation.
From Verif Require Import Base Chrono Types TypesProofs Query Memory MemSpec QueryProofs MemProofs
  MemHist MemHist2 MemNotify MemConc.

Definition is_enq (o : mop) : bool := match o with OpEnqueue _ => true | _ => false end.

(** Which events an operation executed as one action leaves behind. *)
Inductive ev_of (now : time) : mop -> mres -> list cevent -> Prop :=
| eo_apply i o r : ev_of now o r [EvApply i now o r]
| eo_hand k ex j : ev_of now (OpLoad ex) (RJob (Ok (Some j))) [EvHandOut k j]
| eo_none ex r : (forall j, r <> Ok (Some j)) -> ev_of now (OpLoad ex) (RJob r) []
| eo_back i j r : ev_of now (OpUpdate j) (RUnit r) [EvWriteBack i j r].

Inductive move (p : profile) (m m' : mem) (ev : list cevent) : Prop :=
| mv_quiet :
    m_jobs m' = m_jobs m -> m_poisoned m' = m_poisoned m -> m_paused m' = m_paused m ->
    ev = [] -> move p m m' ev
| mv_op now o r :
    is_enq o = false -> mem_step p now m o = (m', r) -> ev_of now o r ev -> move p m m' ev
| mv_push i now id e :
    m_poisoned m = false -> m' = set_jobs (m_jobs m ++ [into_job now id e]) m ->
    ev = [EvInsert i (new_job now id e)] -> move p m m' ev.

Lemma call_step_move p i now m c m' c' ev :
  call_step p i now m c = (m', c', ev) -> move p m m' ev.
Proof.
  unfold call_step. destruct c as [o pc0 cid]. cbn [cl_pc cl_op cl_id].
  destruct pc0 as [| |id|id|j|r]; intro H.
  - destruct (is_enq o) eqn:Eo.
    + destruct o as [e| | | | | | | | | | | | |]; try discriminate Eo.
      destruct (eq_criteria e) as [uq|].
      * destruct (matching_jobs _ m) as [[|k rest]|err|]; injection H as <- <- <-; apply mv_quiet; reflexivity.
      * injection H as <- <- <-. apply mv_quiet; reflexivity.
    + assert (H' : (let (m', r) := mem_step p now m o in
                    (m', mk_call o (PcDone r) cid, [EvApply i now o r])) = (m', c', ev))
        by (destruct o; exact H || discriminate Eo).
      destruct (mem_step p now m o) as [m1 r] eqn:E. injection H' as <- <- <-.
      eapply mv_op; [exact Eo | exact E | constructor].
  - destruct o; injection H as <- <- <-; apply mv_quiet; reflexivity.
  - destruct o as [e| | | | | | | | | | | | |]; try (injection H as <- <- <-; apply mv_quiet; reflexivity).
    destruct (m_poisoned m) eqn:Ep; injection H as <- <- <-; [apply mv_quiet; reflexivity|].
    eapply mv_push; [exact Ep | reflexivity | reflexivity].
  - destruct o as [e| | | | | | | | | | | | |]; injection H as <- <- <-; apply mv_quiet;
      rewrite ?notify_jobs, ?notify_poisoned, ?notify_paused; reflexivity.
  - destruct o as [e| | | | | | | | | | | | |]; try (injection H as <- <- <-; apply mv_quiet; reflexivity).
    destruct (mem_update m j) as [m1 r] eqn:E. injection H as <- <- <-.
    eapply mv_op with (now := now) (o := OpUpdate j) (r := RUnit r); [reflexivity| |constructor].
    cbn [mem_step]. rewrite E. reflexivity.
  - destruct o; injection H as <- <- <-; apply mv_quiet; reflexivity.
Qed.

Lemma stream_step_move p k now m sb ph m' ph' ev :
  stream_step p k now m sb ph = (m', ph', ev) -> move p m m' ev.
Proof.
  unfold stream_step. destruct ph as [|t|t rd d|t rd d|t rd sl d|r|]; intro H;
    try (injection H as <- <- <-; apply mv_quiet; reflexivity).
  - destruct (next_available _ m); injection H as <- <- <-; apply mv_quiet; reflexivity.
  - destruct (mem_load p now m (sub_executor sb)) as [m1 r] eqn:E.
    assert (Hm : mem_step p now m (OpLoad (sub_executor sb)) = (m1, RJob r))
      by (cbn [mem_step]; rewrite E; reflexivity).
    destruct r as [[j|]|err|]; injection H as <- <- <-;
      (eapply (mv_op p _ _ _ now (OpLoad (sub_executor sb))); [reflexivity | exact Hm | constructor; intros j' Hj'; discriminate Hj' ]).
Qed.

Lemma conc_step_move p s l s' ev :
  conc_step p s l = (s', ev) -> move p (c_mem s) (c_mem s') ev.
Proof.
  assert (Hq : move p (c_mem s) (c_mem s) []) by (apply mv_quiet; reflexivity).
  destruct l as [o|i now|ex|k now|k]; cbn [conc_step]; intro H.
  - destruct o; injection H as <- <-; exact Hq.
  - destruct (nth_error (c_calls s) i) as [c|]; [|injection H as <- <-; exact Hq].
    destruct (call_step p i now (c_mem s) c) as [[m' c'] ev'] eqn:E. injection H as <- <-.
    eapply call_step_move. exact E.
  - injection H as <- <-. apply mv_quiet; reflexivity.
  - destruct (nth_error (c_streams s) k) as [ph|]; [|injection H as <- <-; exact Hq].
    destruct (nth_error (m_subs (c_mem s)) k) as [sb|]; [|injection H as <- <-; exact Hq].
    destruct (stream_step p k now (c_mem s) sb ph) as [[m' ph'] ev'] eqn:E. injection H as <- <-.
    eapply stream_step_move. exact E.
  - destruct (nth_error (c_streams s) k) as [[| | | |t rd sl d| |]|]; try (injection H as <- <-; exact Hq).
    destruct (nth_error (m_subs (c_mem s)) k) as [sb|]; [|injection H as <- <-; exact Hq].
    destruct (sub_queue sb); injection H as <- <-; [exact Hq|]. apply mv_quiet; reflexivity.
Qed.

(** * Ids *)

Definition drawn_ids (cs : list call) : list Z :=
  flat_map (fun c => match cl_id c with Some i => [i] | None => [] end) cs.

Definition past_push (c : call) : Prop :=
  match cl_pc c with PcNotify _ | PcDone _ => True | _ => False end.

Definition ev_inserted (tr : list cevent) : list Z :=
  flat_map (fun ev => match ev with EvInsert _ j => [j_id j] | _ => [] end) tr.

Definition has_criteria (o : mop) : Prop :=
  match o with OpEnqueue e => eq_criteria e <> None | _ => False end.

Definition pc_ok (c : call) : Prop :=
  (cl_id c <> None -> is_enq (cl_op c) = true)
  /\ match cl_pc c with
     | PcStart | PcDraw => cl_id c = None
     | PcPush id | PcNotify id => cl_id c = Some id
     | PcWriteBack _ => cl_id c = None /\ has_criteria (cl_op c)
     | PcDone (RId (Ok id)) =>
         cl_id c = Some id \/ (cl_id c = None /\ has_criteria (cl_op c))
     | PcDone _ => True
     end.

Lemma mem_step_not_rid p now m o : is_enq o = false -> forall r, snd (mem_step p now m o) <> RId r.
Proof.
  intros Ho r. destruct o; try discriminate Ho; cbn [mem_step];
    repeat match goal with |- context [let (_, _) := ?x in _] => destruct x end; cbn; discriminate.
Qed.

Lemma call_step_ids p i now m c m' c' ev :
  pc_ok c -> call_step p i now m c = (m', c', ev) ->
  pc_ok c' /\ cl_op c' = cl_op c /\ (past_push c -> past_push c')
  /\ ((cl_id c' = cl_id c /\ m_next_id m' = m_next_id m)
      \/ (cl_id c = None /\ cl_id c' = Some (m_next_id m) /\ is_enq (cl_op c) = true
          /\ m_next_id m' = wrap_i32 (m_next_id m + 1) /\ ev_inserted ev = []))
  /\ (ev_inserted ev = []
      \/ exists id, ev_inserted ev = [id] /\ cl_id c = Some id /\ ~ past_push c /\ past_push c').
Proof.
  unfold call_step, pc_ok, past_push. destruct c as [o pc0 cid]. cbn [cl_pc cl_op cl_id].
  intros [Hop Hpc] H.
  destruct pc0 as [| |id|id|j|r].
  - destruct (is_enq o) eqn:Eo.
    + destruct o as [e| | | | | | | | | | | | |]; try discriminate Eo.
      destruct (eq_criteria e) as [uq|] eqn:Ec.
      * destruct (matching_jobs _ m) as [[|k rest]|err|]; injection H as <- <- <-; cbn; subst cid;
          repeat split; auto. rewrite Ec. discriminate.
      * injection H as <- <- <-. cbn. repeat split; auto.
    + assert (H' : (let (m', r) := mem_step p now m o in
                    (m', mk_call o (PcDone r) cid, [EvApply i now o r])) = (m', c', ev))
        by (destruct o; exact H || discriminate Eo).
      pose proof (mem_step_not_rid p now m o Eo) as Hr. pose proof (mem_step_next p now m o) as Hn.
      destruct (mem_step p now m o) as [m1 r] eqn:E. injection H' as <- <- <-. cbn in *.
      split; [|split; [reflexivity|]; split; [auto|]; split; [left; split; [reflexivity|]|left; reflexivity]].
      * split; [subst cid; congruence|]. destruct r as [r|r|r|r]; auto. exfalso. eapply Hr. reflexivity.
      * destruct Hn as [[-> _]|[e [-> _]]]; [reflexivity | discriminate Eo].
  - destruct o as [e| | | | | | | | | | | | |]; injection H as <- <- <-; cbn; repeat split; auto.
    right. repeat split; auto.
  - destruct o as [e| | | | | | | | | | | | |]; try (injection H as <- <- <-; cbn; repeat split; auto; fail).
    destruct (m_poisoned m); injection H as <- <- <-; cbn; repeat split; auto.
    right. exists id. repeat split; auto.
  - destruct o as [e| | | | | | | | | | | | |]; injection H as <- <- <-; cbn; repeat split; auto.
    left. split; [reflexivity|]. apply notify_next_id.
  - destruct o as [e| | | | | | | | | | | | |]; try (exfalso; exact (proj2 Hpc)).
    pose proof (with_job_next m (j_id j) (fun _ => Some j) true) as Hn. unfold mem_update in H.
    destruct (with_job m _ _ true) as [m1 r]. injection H as <- <- <-. cbn in *.
    split; [split; [auto|]; destruct r; auto|]. repeat split; auto.
  - destruct o; injection H as <- <- <-; cbn; repeat split; auto.
Qed.

Record cid_inv (s : cstate) (tr : list cevent) : Prop := {
  ci_next : m_next_id (c_mem s) = wrap_i32 (Z.of_nat (length (drawn_ids (c_calls s))));
  ci_drawn : forall i, In i (drawn_ids (c_calls s)) ->
               drawn (Z.of_nat (length (drawn_ids (c_calls s)))) i;
  ci_nodup : NoDup (drawn_ids (c_calls s));
  ci_pc : Forall pc_ok (c_calls s);
  ci_ins : NoDup (ev_inserted tr);
  ci_owner : forall id, In id (ev_inserted tr) ->
               exists c, In c (c_calls s) /\ cl_id c = Some id /\ past_push c;
  ci_store : NoDup (ids (m_jobs (c_mem s)));
  ci_sub : incl (ids (m_jobs (c_mem s))) (ev_inserted tr)
}.

Definition enq_calls (cs : list call) : nat := length (filter (fun c => is_enq (cl_op c)) cs).

Lemma drawn_le cs : Forall pc_ok cs -> (length (drawn_ids cs) <= enq_calls cs)%nat.
Proof.
  induction 1 as [|c cs [Hc _] _ IH]; unfold enq_calls, drawn_ids in *; cbn; [lia|].
  rewrite app_length. destruct (cl_id c) as [i|]; cbn; [|destruct (is_enq (cl_op c)); cbn; lia].
  rewrite Hc by discriminate. cbn. lia.
Qed.

Lemma nth_split {A} (l : list A) i x :
  nth_error l i = Some x -> exists pre post, l = pre ++ x :: post /\ length pre = i.
Proof. apply nth_error_split. Qed.

Lemma ev_inserted_app a b : ev_inserted (a ++ b) = ev_inserted a ++ ev_inserted b.
Proof. unfold ev_inserted. apply flat_map_app. Qed.

Lemma drawn_ids_mid pre c post :
  drawn_ids (pre ++ c :: post)
  = drawn_ids pre ++ (match cl_id c with Some i => [i] | None => [] end) ++ drawn_ids post.
Proof. unfold drawn_ids. rewrite flat_map_app. reflexivity. Qed.

Lemma owner_unique cs c1 c2 id :
  NoDup (drawn_ids cs) -> In c1 cs -> In c2 cs -> cl_id c1 = Some id -> cl_id c2 = Some id -> c1 = c2.
Proof.
  intros Hnd H1 H2 E1 E2. apply in_split in H1. destruct H1 as [a [b ->]].
  rewrite drawn_ids_mid, E1 in Hnd. cbn in Hnd. apply NoDup_remove_2 in Hnd.
  apply in_app_or in H2. destruct H2 as [H2|[H2|H2]]; [exfalso|exact H2|exfalso]; apply Hnd, in_or_app.
  - left. apply in_flat_map. exists c2. rewrite E2. cbn. auto.
  - right. apply in_flat_map. exists c2. rewrite E2. cbn. auto.
Qed.

(** Store part of the invariant. *)
Lemma move_ids p m m' ev :
  move p m m' ev -> NoDup (ids (m_jobs m)) ->
  (ev_inserted ev = [] /\ NoDup (ids (m_jobs m')) /\ incl (ids (m_jobs m')) (ids (m_jobs m)))
  \/ (exists id, ev_inserted ev = [id] /\ ids (m_jobs m') = ids (m_jobs m) ++ [id]).
Proof.
  intros [Hj _ _ ->|now o r Ho Hs Hev|i now id e _ -> ->] Hnd.
  - left. rewrite Hj. split; [reflexivity|]. split; [exact Hnd | apply incl_refl].
  - left. pose proof (mem_step_jstep p now m o Hnd) as Hj. rewrite Hs in Hj. apply jstep_ids in Hj.
    split; [destruct Hev; reflexivity|].
    destruct Hj as [[e [id [-> _]]]|[->|[ps [-> H]]]]; [discriminate Ho | split; [exact Hnd|apply incl_refl]|].
    split; [eapply retained_map_nodup; eassumption|].
    intros i Hi. unfold ids in *. apply in_map_iff in Hi. destruct Hi as [k [<- Hk]].
    apply in_map_iff. exists k. split; [reflexivity|]. eapply retained_in; eassumption.
  - right. exists id. split; [reflexivity|]. cbn. unfold ids. rewrite map_app. reflexivity.
Qed.

Lemma cid_inv_step p s tr l :
  cid_inv s tr -> Z.of_nat (enq_calls (c_calls s)) <= 4294967296 ->
  cid_inv (fst (conc_step p s l)) (tr ++ snd (conc_step p s l)).
Proof.
  intros Hi Hb. pose proof Hi as [Hnx Hdr Hnd Hpc Hin How Hst Hsub].
  pose proof (drawn_le _ Hpc) as Hle.
  destruct (conc_step p s l) as [s' ev] eqn:E. cbn [fst snd].
  pose proof (move_ids _ _ _ _ (conc_step_move _ _ _ _ _ E) Hst) as Hmv.
  assert (Hsame : forall cs' m',
    c_calls s' = cs' -> c_mem s' = m' -> m_next_id m' = m_next_id (c_mem s) ->
    drawn_ids cs' = drawn_ids (c_calls s) -> Forall pc_ok cs' ->
    (forall id, In id (ev_inserted tr) -> exists c, In c cs' /\ cl_id c = Some id /\ past_push c) ->
    ev_inserted ev = [] -> cid_inv s' (tr ++ ev)).
  { intros cs' m' H1 H2 H3 H4 H5 H6 H7.
    destruct Hmv as [[_ [Hm1 Hm2]]|[id [Hm1 _]]]; [|congruence].
    split; rewrite ?H1, ?H2, ?H4, ?ev_inserted_app, ?H7, ?app_nil_r; auto; try congruence.
    rewrite <- H2. intros x Hx. apply Hsub, Hm2, Hx. }
  destruct l as [o|i now|ex|k now|k]; cbn [conc_step] in E.
  - assert (Hq : (s', ev) = (mk_c (c_mem s) (c_calls s ++ [mk_call o PcStart None]) (c_streams s), [])
                 \/ (s', ev) = (s, [])) by (destruct o; rewrite <- E; auto).
    destruct Hq as [Hq|Hq]; injection Hq as -> ->.
    + apply (Hsame (c_calls s ++ [mk_call o PcStart None]) (c_mem s)); auto.
      * unfold drawn_ids. rewrite flat_map_app. cbn. apply app_nil_r.
      * apply Forall_app. split; [exact Hpc|]. constructor; [|constructor]. split; cbn; congruence.
      * intros id Hid. destruct (How id Hid) as [c [H1 H2]]. exists c. split; [apply in_or_app; auto|exact H2].
    + apply (Hsame (c_calls s) (c_mem s)); auto.
  - destruct (nth_error (c_calls s) i) as [c|] eqn:En;
      [|injection E as <- <-; apply (Hsame (c_calls s) (c_mem s)); auto].
    destruct (call_step p i now (c_mem s) c) as [[m' c'] ev'] eqn:Ec. injection E as <- <-.
    apply nth_split in En. destruct En as [pre [post [El Ei]]].
    rewrite El in *. rewrite <- Ei in *. rewrite set_nth_split in *. clear i Ei.
    assert (Hc : pc_ok c) by (eapply Forall_forall; [exact Hpc | apply in_mid; auto]).
    destruct (call_step_ids _ _ _ _ _ _ _ _ Hc Ec) as [Hc' [Hop [Hpp [Hid Hins]]]].
    assert (Hpc' : Forall pc_ok (pre ++ c' :: post)).
    { apply Forall_app in Hpc. destruct Hpc as [H1 H2]. inversion H2; subst.
      apply Forall_app. split; [exact H1|]. constructor; assumption. }
    assert (How' : forall id, (cl_id c' = cl_id c \/ cl_id c = None) -> In id (ev_inserted tr) ->
              exists c0, In c0 (pre ++ c' :: post) /\ cl_id c0 = Some id /\ past_push c0).
    { intros id Hk Hid'. destruct (How id Hid') as [c0 [H1 [H2 H3]]].
      apply in_mid in H1. destruct H1 as [->|H1].
      - exists c'. split; [apply in_mid; auto|]. destruct Hk as [Hk|Hk]; [|congruence].
        split; [congruence | auto].
      - exists c0. split; [apply in_mid; auto | auto]. }
    cbn [c_mem] in Hmv.
    destruct Hid as [[Hid1 Hid2]|[Hid1 [Hid2 [Hid3 [Hid4 Hid5]]]]].
    + assert (Hd : drawn_ids (pre ++ c' :: post) = drawn_ids (pre ++ c :: post))
        by (rewrite !drawn_ids_mid, Hid1; reflexivity).
      destruct Hins as [Hins|[id [Hins [Hi1 [Hi2 Hi3]]]]].
      * apply (Hsame (pre ++ c' :: post) m'); auto.
      * destruct Hmv as [[Hm _]|[id' [Hm1 Hm2]]]; [congruence|].
        assert (id' = id) by congruence. subst id'.
        assert (Hfresh : ~ In id (ev_inserted tr)).
        { intro H. destruct (How id H) as [c0 [H1 [H2 H3]]].
          assert (c0 = c) by (eapply owner_unique; [exact Hnd|exact H1|apply in_mid; auto|exact H2|exact Hi1]).
          subst c0. contradiction. }
        split; cbn [c_mem c_calls]; rewrite ?Hd, ?ev_inserted_app, ?Hins; auto; try congruence.
        -- apply nodup_snoc; assumption.
        -- intros id0 H. apply in_app_or in H. destruct H as [H|[<-|[]]]; [apply How'; auto|].
           exists c'. split; [apply in_mid; auto|]. split; [congruence|exact Hi3].
        -- rewrite Hm2. apply nodup_snoc; [exact Hst|]. intro H. apply Hfresh, Hsub, H.
        -- rewrite Hm2. intros x Hx. apply in_app_or in Hx. apply in_or_app.
           destruct Hx as [Hx|Hx]; [left; apply Hsub, Hx | right; exact Hx].
    + destruct Hmv as [[_ [Hm1 Hm2]]|[id [Hm1 _]]]; [|congruence].
      set (n := Z.of_nat (length (drawn_ids (pre ++ c :: post)))) in *.
      assert (Hlen : length (drawn_ids (pre ++ c' :: post)) = S (length (drawn_ids (pre ++ c :: post)))).
      { rewrite !drawn_ids_mid, Hid1, Hid2, !app_length. cbn. lia. }
      assert (Hperm : Permutation (m_next_id (c_mem s) :: drawn_ids (pre ++ c :: post)) (drawn_ids (pre ++ c' :: post))).
      { rewrite !drawn_ids_mid, Hid1, Hid2. cbn. apply Permutation_middle. }
      assert (Hn1 : n + 1 <= 4294967296).
      { assert (length (drawn_ids (pre ++ c' :: post)) <= enq_calls (pre ++ c' :: post))%nat by (apply drawn_le; exact Hpc').
        assert (enq_calls (pre ++ c' :: post) = enq_calls (pre ++ c :: post)) as Heq.
        { unfold enq_calls. rewrite !filter_app. cbn. rewrite Hop. rewrite !app_length.
          destruct (is_enq (cl_op c)); reflexivity. }
        rewrite Heq in *. subst n. lia. }
      assert (Hfr : ~ In (m_next_id (c_mem s)) (drawn_ids (pre ++ c :: post))).
      { intro H. apply Hdr in H. rewrite Hnx in H. revert H. apply drawn_fresh. subst n. lia. }
      split; cbn [c_mem c_calls]; rewrite ?Hlen, ?ev_inserted_app, ?Hid5, ?app_nil_r; auto.
      * rewrite Hid4, Hnx. rewrite wrap_i32_add. f_equal. subst n. lia.
      * intros x Hx. apply (Permutation_in _ (Permutation_sym Hperm)) in Hx.
        replace (Z.of_nat (S (length (drawn_ids (pre ++ c :: post))))) with (n + 1) by (subst n; lia).
        destruct Hx as [<-|Hx].
        -- exists n. split; [subst n; lia | exact Hnx].
        -- apply drawn_mono with n; [lia | auto].
      * apply (Permutation_NoDup Hperm). constructor; assumption.
      * intros x Hx. apply Hsub, Hm2, Hx.
  - injection E as <- <-. apply (Hsame (c_calls s) (mem_subscribe ex (c_mem s))); auto.
  - destruct (nth_error (c_streams s) k) as [ph|];
      [|injection E as <- <-; apply (Hsame (c_calls s) (c_mem s)); auto].
    destruct (nth_error (m_subs (c_mem s)) k) as [sb|];
      [|injection E as <- <-; apply (Hsame (c_calls s) (c_mem s)); auto].
    destruct (stream_step p k now (c_mem s) sb ph) as [[m' ph'] ev'] eqn:Es. injection E as <- <-.
    assert (Hx : m_next_id m' = m_next_id (c_mem s) /\ ev_inserted ev' = []).
    { unfold stream_step in Es. destruct ph as [|t|t rd d|t rd d|t rd sl d|r|];
        try (injection Es as <- <- <-; auto).
      - destruct (next_available _ _); injection Es as <- <- <-; auto.
      - pose proof (mem_step_next p now (c_mem s) (OpLoad (sub_executor sb))) as Hn. cbn in Hn.
        destruct (mem_load p now (c_mem s) (sub_executor sb)) as [m1 [[j|]|err|]];
          injection Es as <- <- <-; cbn in *; (destruct Hn as [[Hn _]|[e [Hn _]]]; [auto | discriminate Hn]). }
    destruct Hx. apply (Hsame (c_calls s) m'); auto.
  - destruct (nth_error (c_streams s) k) as [[| | | |t rd sl d| |]|];
      try (injection E as <- <-; apply (Hsame (c_calls s) (c_mem s)); auto; fail).
    destruct (nth_error (m_subs (c_mem s)) k) as [sb|];
      [|injection E as <- <-; apply (Hsame (c_calls s) (c_mem s)); auto].
    destruct (sub_queue sb).
    + injection E as <- <-; apply (Hsame (c_calls s) (c_mem s)); auto.
    + injection E as <- <-. eapply Hsame; try reflexivity; auto.
Qed.
