(** Lemmas about wake-ups and worker streams in interleaved executions. *)
From Verif Require Import Base Chrono Types TypesProofs Query Memory MemSpec QueryProofs MemProofs
  MemHist MemHist2 MemNotify MemConc MemConcProofs MemConcSpec MemConcThms.

(** Queues only grow. *)
Definition grown (l l' : list sub) : Prop :=
  Forall2 (fun b a => sub_executor a = sub_executor b /\ exists x, sub_queue a = sub_queue b ++ x) l l'.

(** Every subscription of [ex] has a message. *)
Definition woken (ex : string) (l : list sub) : Prop :=
  forall s, In s l -> sub_executor s = ex -> sub_queue s <> [].

Lemma grown_refl l : grown l l.
Proof. induction l; constructor; auto. split; [reflexivity|]. exists []. symmetry. apply app_nil_r. Qed.

Lemma grown_map f l :
  (forall s, sub_executor (f s) = sub_executor s /\ exists x, sub_queue (f s) = sub_queue s ++ x) ->
  grown l (map f l).
Proof. intro H. induction l; constructor; auto. Qed.

Lemma notify_grown ex t m : grown (m_subs m) (m_subs (notify_subscribers ex t m)).
Proof.
  unfold notify_subscribers. destruct (m_paused m); [apply grown_refl|]. cbn. apply grown_map.
  intro s. destruct (String.eqb _ _); cbn; split; auto; [exists [t]; reflexivity|].
  exists []. symmetry. apply app_nil_r.
Qed.

Lemma notify_woken ex t m : m_paused m = false -> woken ex (m_subs (notify_subscribers ex t m)).
Proof.
  intros Hp s Hs He. unfold notify_subscribers in Hs. rewrite Hp in Hs. cbn in Hs.
  apply in_map_iff in Hs. destruct Hs as [s0 [<- _]].
  destruct (String.eqb (sub_executor s0) ex) eqn:E.
  - cbn. destruct (sub_queue s0); discriminate.
  - apply String.eqb_neq in E. congruence.
Qed.

Lemma with_job_avail m id f nt :
  (nt = false -> forall j j', f j = Some j' -> ~ waiting j') ->
  let m' := fst (with_job m id f nt) in
  grown (m_subs m) (m_subs m') /\ m_paused m' = m_paused m
  /\ (m_paused m = false -> forall k', In k' (m_jobs m') -> waiting (kj_job k') ->
        In k' (m_jobs m) \/ woken (j_executor (kj_job k')) (m_subs m')).
Proof.
  intro Hf. cbn zeta. destruct (m_poisoned m) eqn:Hp.
  { unfold with_job. rewrite Hp. split; [apply grown_refl|]. split; [reflexivity|]. auto. }
  pose proof (with_job_spec m id f nt Hp) as H. destruct (with_job m id f nt) as [m' [u|e|]]; cbn [fst].
  - destruct H as [pre [k [post [j' [H1 [H2 [H3 [H4 ->]]]]]]]]. cbn zeta.
    assert (Hin : forall k', In k' (pre ++ mk_kjob j' (kj_key k) :: post) ->
              In k' (m_jobs m) \/ k' = mk_kjob j' (kj_key k)).
    { intros k' Hk. apply in_mid in Hk. rewrite H1. destruct Hk as [->|Hk]; [auto|]. left. apply in_mid. auto. }
    destruct nt.
    + split; [apply (notify_grown _ _ (set_jobs _ m))|]. rewrite notify_paused. split; [reflexivity|].
      intros Hpa k' Hk Hw. rewrite notify_jobs in Hk. destruct (Hin k' Hk) as [H| ->]; [auto|].
      right. apply notify_woken. exact Hpa.
    + split; [apply grown_refl|]. split; [reflexivity|]. intros Hpa k' Hk Hw.
      destruct (Hin k' Hk) as [H| ->]; [auto|]. exfalso. exact (Hf eq_refl _ _ H4 Hw).
  - destruct H as [-> _]. split; [apply grown_refl|]. split; [reflexivity|]. auto.
  - destruct H as [-> _]. split; [apply grown_refl|]. split; [reflexivity|]. auto.
Qed.

Lemma mem_step_avail p now m o :
  is_enq o = false -> (forall ex, o <> OpSubscribe ex) ->
  let m' := fst (mem_step p now m o) in
  grown (m_subs m) (m_subs m') /\ (m_paused m' = false -> m_paused m = false)
  /\ (m_paused m' = false -> forall k', In k' (m_jobs m') -> waiting (kj_job k') ->
        In k' (m_jobs m) \/ woken (j_executor (kj_job k')) (m_subs m')).
Proof.
  intros Ho Hns. cbn zeta.
  assert (Hw : forall id f nt,
    (nt = false -> forall j j', f j = Some j' -> ~ waiting j') ->
    let m' := fst (let (m', r) := with_job m id f nt in (m', RUnit r)) in
    grown (m_subs m) (m_subs m') /\ (m_paused m' = false -> m_paused m = false)
    /\ (m_paused m' = false -> forall k', In k' (m_jobs m') -> waiting (kj_job k') ->
          In k' (m_jobs m) \/ woken (j_executor (kj_job k')) (m_subs m'))).
  { intros id f nt Hf. pose proof (with_job_avail m id f nt Hf) as H. cbn zeta in *.
    destruct (with_job m id f nt) as [m' r]. cbn [fst] in *. destruct H as [H1 [H2 H3]].
    split; [exact H1|]. rewrite H2. auto. }
  destruct o as [e|ex|id|id t er|id er|id er|id t|ps|id|j|q|ex| |]; try discriminate Ho; cbn [mem_step].
  - destruct (m_poisoned m) eqn:Hp.
    { unfold mem_load. rewrite Hp. cbn. split; [apply grown_refl|]. auto. }
    pose proof (mem_load_spec p now m ex Hp) as H.
    destruct (mem_load p now m ex) as [m' [[j'|]|err|]]; cbn [fst].
    + destruct H as [pre [k [post [H1 [_ [H2 [-> _]]]]]]]. split; [apply grown_refl|]. split; [auto|].
      intros _ k' Hk Hwk. left. cbn in Hk. rewrite H1. apply in_mid in Hk.
      destruct Hk as [->|Hk]; [|apply in_mid; auto]. exfalso. cbn in Hwk.
      unfold job_executing in H2. destruct (i32_arith p _); [|discriminate]. injection H2 as <-.
      unfold waiting in Hwk. cbn in Hwk. intuition discriminate.
    + destruct H as [-> _]. split; [apply grown_refl|]. auto.
    + destruct H.
    + destruct H as [-> _]. split; [apply grown_refl|]. auto.
  - apply Hw. intros _ j j' Hj. injection Hj as <-. unfold waiting. cbn. intuition discriminate.
  - apply Hw. discriminate.
  - apply Hw. intros _ j j' Hj. injection Hj as <-. unfold waiting. cbn. intuition discriminate.
  - apply Hw. intros _ j j' Hj. injection Hj as <-. unfold waiting. cbn. intuition discriminate.
  - apply Hw. discriminate.
  - unfold mem_prune. destruct (m_poisoned m); [cbn; split; [apply grown_refl|]; auto|].
    destruct (ps_by ps) as [d|n].
    + destruct (dt_sub now d), (dt_add now d); cbn; (split; [apply grown_refl|]); auto.
      split; [auto|]. intros _ k' Hk _. apply filter_In in Hk. tauto.
    + clear Hw. cbn. split; [apply grown_refl|]. split; [auto|]. intros _ k' Hk _. left.
      revert Hk. generalize 0. induction (m_jobs m) as [|x l IH]; intros c Hk; cbn in *; [exact Hk|].
      destruct (prune_matches ps (kj_job x)).
      * destruct (n <? c + 1); [destruct Hk as [->|Hk]; eauto | right; eauto].
      * destruct Hk as [->|Hk]; eauto.
  - apply Hw. discriminate.
  - apply Hw. discriminate.
  - cbn. split; [apply grown_refl|]. auto.
  - exfalso. exact (Hns ex eq_refl).
  - cbn. split; [|auto]. apply grown_map. intro s. cbn. split; [reflexivity|]. eauto.
  - cbn. split; [apply grown_refl|]. split; discriminate.
Qed.

Lemma grown_nth l l' k s' :
  grown l l' -> nth_error l' k = Some s' ->
  exists s, nth_error l k = Some s /\ sub_executor s' = sub_executor s
    /\ (sub_queue s' = [] -> sub_queue s = []).
Proof.
  intro H. revert k. induction H as [|b a l l' [H1 [x H2]] H IH]; intros [|k] Hk; cbn in *; try discriminate.
  - injection Hk as <-. exists b. repeat split; auto. intro E. rewrite E in H2.
    symmetry in H2. apply app_eq_nil in H2. tauto.
  - auto.
Qed.

(** * What a stream sees *)

Lemma min_time_spec l :
  match min_time l with
  | None => l = []
  | Some t => In t l /\ forall u, In u l -> t <= u
  end.
Proof.
  induction l as [|x l IH]; cbn; [reflexivity|]. destruct (min_time l) as [t|].
  - destruct IH as [H1 H2]. split.
    + destruct (Z.min_spec x t) as [[_ ->]|[_ ->]]; auto.
    + intros u [<-|Hu]; [lia|]. specialize (H2 u Hu). lia.
  - subst l. cbn. split; [auto|]. intros u [<-|[]]. lia.
Qed.

Lemma next_available_spec ex m t :
  next_available ex m = Ok t ->
  (forall k, In k (m_jobs m) -> waiting (kj_job k) -> j_executor (kj_job k) = ex ->
     exists ts, t = Some ts /\ ts <= j_scheduled_at (kj_job k))
  /\ (forall ts, t = Some ts -> exists k, In k (m_jobs m) /\ waiting (kj_job k)
        /\ j_executor (kj_job k) = ex /\ j_scheduled_at (kj_job k) = ts).
Proof.
  unfold next_available, mem_query, matching_jobs. destruct (m_poisoned m); [discriminate|].
  set (q := QAnd _). intro H. injection H as <-.
  assert (Hq : forall j, query_matches q j = true <-> j_executor j = ex /\ waiting j).
  { intro j. cbn. rewrite !andb_true_iff, orb_false_r, orb_true_iff, !status_eqb_eq, String.eqb_eq.
    unfold waiting. tauto. }
  pose proof (min_time_spec (map j_scheduled_at (map kj_job (filter (fun k => query_matches q (kj_job k)) (m_jobs m))))) as Hm.
  destruct (min_time _) as [ts|].
  - destruct Hm as [H1 H2]. split.
    + intros k Hk Hw Hex. exists ts. split; [reflexivity|]. apply H2. rewrite map_map.
      apply (in_map (fun k => j_scheduled_at (kj_job k))). apply filter_In. split; [exact Hk|]. apply Hq. auto.
    + intros ts' Hts. injection Hts as <-. rewrite map_map in H1. apply in_map_iff in H1.
      destruct H1 as [k [H3 H4]]. apply filter_In in H4. destruct H4 as [H4 H5]. apply Hq in H5.
      exists k. tauto.
  - split; [|discriminate]. intros k Hk Hw Hex. exfalso.
    assert (Hin : In k (filter (fun k => query_matches q (kj_job k)) (m_jobs m)))
      by (apply filter_In; split; [exact Hk | apply Hq; auto]).
    destruct (filter _ _); [destruct Hin | discriminate Hm].
Qed.

(** * The invariant *)

Definition seen_of (ph : sphase) : option (option time) :=
  match ph with
  | SGot t | SLoad t _ _ | SSelect t _ _ | SWait t _ _ _ => Some t
  | _ => None
  end.

Definition wake_inv (s : cstate) : Prop :=
  length (c_streams s) = length (m_subs (c_mem s))
  /\ (m_paused (c_mem s) = false ->
      forall k ph t sb kj,
        nth_error (c_streams s) k = Some ph -> seen_of ph = Some t ->
        nth_error (m_subs (c_mem s)) k = Some sb -> sub_queue sb = [] ->
        In kj (m_jobs (c_mem s)) -> waiting (kj_job kj) -> j_executor (kj_job kj) = sub_executor sb ->
        (exists ts, t = Some ts /\ ts <= j_scheduled_at (kj_job kj))
        \/ about_to_notify s (sub_executor sb)).

Lemma set_nth_nth {A} k (x : A) l k' :
  nth_error (set_nth k x l) k' =
  if Nat.eqb k k' then match nth_error l k with Some _ => Some x | None => None end
  else nth_error l k'.
Proof.
  revert k k'. induction l as [|y l IH]; intros [|k] [|k']; cbn; try reflexivity; try apply IH.
  destruct (Nat.eqb k k'); reflexivity.
Qed.

(** Steps that leave streams alone and change the store like an operation. *)
Lemma wake_inv_mem s m' calls' :
  wake_inv s ->
  grown (m_subs (c_mem s)) (m_subs m') -> (m_paused m' = false -> m_paused (c_mem s) = false) ->
  (m_paused m' = false -> forall k', In k' (m_jobs m') -> waiting (kj_job k') ->
     In k' (m_jobs (c_mem s)) \/ woken (j_executor (kj_job k')) (m_subs m')
     \/ about_to_notify (mk_c m' calls' (c_streams s)) (j_executor (kj_job k'))) ->
  (m_paused m' = false -> forall ex, about_to_notify s ex ->
     woken ex (m_subs m') \/ about_to_notify (mk_c m' calls' (c_streams s)) ex) ->
  wake_inv (mk_c m' calls' (c_streams s)).
Proof.
  intros [Hl Hi] Hg Hp Hj Hn. split; cbn [c_mem c_streams c_calls].
  - rewrite Hl. clear - Hg. induction Hg; cbn; congruence.
  - intros Hpa k ph t sb kj Hk Hs Hsb Hq Hkj Hw Hex.
    destruct (grown_nth _ _ _ _ Hg Hsb) as [sb0 [G1 [G2 G3]]].
    assert (Hsw : forall ex, woken ex (m_subs m') -> ex = sub_executor sb -> False).
    { intros ex Hwk ->. apply (Hwk sb); auto. eapply nth_error_In. exact Hsb. }
    destruct (Hj Hpa kj Hkj Hw) as [Hin|[Hwk|Hab]].
    + destruct (Hi (Hp Hpa) k ph t sb0 kj Hk Hs G1 (G3 Hq) Hin Hw) as [H|H]; [congruence|auto|].
      rewrite <- G2 in H. destruct (Hn Hpa _ H) as [H'|H']; [exfalso; eapply Hsw; eauto | auto].
    + exfalso. eapply Hsw; eauto.
    + right. rewrite <- Hex. exact Hab.
Qed.

Lemma about_calls s s' ex :
  (forall c id, In c (c_calls s) -> cl_pc c = PcNotify id -> In c (c_calls s')) ->
  about_to_notify s ex -> about_to_notify s' ex.
Proof. intros H [c [id [e [H1 [H2 H3]]]]]. exists c, id, e. split; [eapply H; eauto | auto]. Qed.

Lemma stream_step_mem p k now m sb ph m' ph' ev :
  stream_step p k now m sb ph = (m', ph', ev) ->
  m' = m \/ (m' = fst (mem_load p now m (sub_executor sb)) /\ exists t rd d, ph = SLoad t rd d).
Proof.
  unfold stream_step. destruct ph as [|t|t rd d|t rd d|t rd sl d|r|]; intro H;
    try (injection H as <- <- <-; auto).
  - destruct (next_available _ m); injection H as <- <- <-; auto.
  - right. destruct (mem_load p now m (sub_executor sb)) as [m1 [[j|]|err|]]; injection H as <- <- <-; eauto.
Qed.

Definition no_sub (s : cstate) : Prop :=
  forall c ex, In c (c_calls s) -> cl_op c <> OpSubscribe ex.

Lemma no_sub_step p s l : no_sub s -> no_sub (fst (conc_step p s l)).
Proof.
  intro Hi. destruct l as [o|i now|ex|k now|k]; cbn [conc_step].
  - destruct o; try exact Hi; intros c ex Hc; cbn [fst c_calls] in Hc; apply in_app_or in Hc;
      (destruct Hc as [Hc|[<-|[]]]; [exact (Hi c ex Hc) | discriminate]).
  - destruct (nth_error (c_calls s) i) as [c|] eqn:En; [|exact Hi].
    destruct (call_step p i now (c_mem s) c) as [[m' c'] ev'] eqn:Ec. cbn [fst].
    apply call_step_op in Ec. intros c0 ex H. cbn [c_calls] in H.
    assert (Hc : In c (c_calls s)) by (eapply nth_error_In; exact En).
    apply nth_split in En. destruct En as [pre [post [El Ei]]].
    rewrite El, <- Ei, set_nth_split in H. apply in_mid in H. destruct H as [->|H].
    + rewrite Ec. apply Hi. exact Hc.
    + apply Hi. rewrite El. apply in_mid. auto.
  - exact Hi.
  - destruct (nth_error (c_streams s) k); [|exact Hi]. destruct (nth_error (m_subs (c_mem s)) k); [|exact Hi].
    destruct (stream_step _ _ _ _ _ _) as [[? ?] ?]. exact Hi.
  - destruct (nth_error (c_streams s) k) as [[| | | |t rd sl d| |]|]; try exact Hi.
    destruct (nth_error (m_subs (c_mem s)) k) as [sb|]; [|exact Hi]. destruct (sub_queue sb); exact Hi.
Qed.

Lemma wake_inv_step p s l : no_sub s -> wake_inv s -> wake_inv (fst (conc_step p s l)).
Proof.
  intros Hns Hi. destruct l as [o|i now|ex|k now|k]; cbn [conc_step].
  - assert (H : wake_inv (mk_c (c_mem s) (c_calls s ++ [mk_call o PcStart None]) (c_streams s))).
    { apply wake_inv_mem; auto; [apply grown_refl|]. intros _ ex H. right.
      eapply about_calls; [|exact H]. cbn. intros. apply in_or_app. auto. }
    destruct o; exact H || exact Hi.
  - destruct (nth_error (c_calls s) i) as [c|] eqn:En; [|exact Hi].
    assert (Hsub : forall ex, cl_op c <> OpSubscribe ex)
      by (intro ex; apply Hns; eapply nth_error_In; exact En).
    destruct (call_step p i now (c_mem s) c) as [[m' c'] ev'] eqn:Ec. cbn [fst].
    apply nth_split in En. destruct En as [pre [post [El Ei]]].
    rewrite El, <- Ei, set_nth_split.
    assert (Hkeep : (forall id, cl_pc c <> PcNotify id) -> forall ex,
              about_to_notify s ex -> about_to_notify (mk_c m' (pre ++ c' :: post) (c_streams s)) ex).
    { intros Hc ex. apply about_calls. cbn. intros c0 id H1 H2. rewrite El in H1. apply in_mid in H1.
      destruct H1 as [->|H1]; [exfalso; eapply Hc; exact H2 | apply in_mid; auto]. }
    assert (Hop : forall now' o', is_enq o' = false -> (forall ex, o' <> OpSubscribe ex) ->
              (forall id, cl_pc c <> PcNotify id) ->
              m' = fst (mem_step p now' (c_mem s) o') -> wake_inv (mk_c m' (pre ++ c' :: post) (c_streams s))).
    { intros now' o' Ho' Hs' Hc Hm. pose proof (mem_step_avail p now' (c_mem s) o' Ho' Hs') as H. cbn zeta in H.
      rewrite <- Hm in H. destruct H as [H1 [H2 H3]]. apply wake_inv_mem; auto.
      intros Hpa k' Hk' Hw. destruct (H3 Hpa k' Hk' Hw); auto. }
    unfold call_step in Ec. destruct c as [o pc0 cid]; cbn [cl_pc cl_op cl_id] in *.
    destruct pc0 as [| |id0|id0|j|r].
    + assert (Hk0 := Hkeep ltac:(discriminate)). destruct (is_enq o) eqn:Eo.
      * assert (m' = c_mem s) as ->.
        { destruct o as [e| | | | | | | | | | | | |]; try discriminate Eo.
          destruct (eq_criteria e); [|injection Ec as <- _ _; reflexivity].
          destruct (matching_jobs _ _) as [[|]| |]; injection Ec as <- _ _; reflexivity. }
        apply wake_inv_mem; auto. apply grown_refl.
      * apply (Hop now o); auto; try (intros; discriminate).
        assert (H' : (let (m', r) := mem_step p now (c_mem s) o in
                    (m', mk_call o (PcDone r) cid, [EvApply i now o r])) = (m', c', ev'))
          by (destruct o; exact Ec || discriminate Eo).
        destruct (mem_step p now (c_mem s) o) as [m1 r]. injection H' as <- _ _. reflexivity.
    + assert (Hk0 := Hkeep ltac:(discriminate)).
      destruct o as [e| | | | | | | | | | | | |]; injection Ec as <- <- <-; apply wake_inv_mem; auto; apply grown_refl.
    + assert (Hk0 := Hkeep ltac:(discriminate)).
      destruct o as [e| | | | | | | | | | | | |];
        try (injection Ec as <- <- <-; apply wake_inv_mem; auto; apply grown_refl).
      destruct (m_poisoned (c_mem s)); injection Ec as <- <- <-;
        [apply wake_inv_mem; auto; apply grown_refl | apply wake_inv_mem; auto; [apply grown_refl|]].
      intros _ k' Hk' _. cbn in Hk'. apply in_app_or in Hk'. destruct Hk' as [Hk'|[<-|[]]]; [auto|].
      right. right. eexists _, id0, e. cbn. split; [apply in_mid; left; reflexivity|]. auto.
    + destruct o as [e| | | | | | | | | | | | |];
        try (injection Ec as <- <- <-; rewrite <- El; destruct s; exact Hi).
      injection Ec as <- <- <-. apply wake_inv_mem; auto.
      * apply notify_grown.
      * rewrite notify_paused. auto.
      * intros _ k' Hk' _. rewrite notify_jobs in Hk'. auto.
      * rewrite notify_paused. intros Hpa ex [c [id [e0 [H1 [H2 [H3 H4]]]]]].
        rewrite El in H1. apply in_mid in H1. destruct H1 as [->|H1].
        -- cbn in H3. injection H3 as <-. subst ex. left. apply notify_woken. exact Hpa.
        -- right. exists c, id, e0. split; [cbn; apply in_mid; auto | auto].
    + destruct o as [e| | | | | | | | | | | | |];
        try (injection Ec as <- <- <-; rewrite <- El; destruct s; exact Hi).
      apply (Hop now (OpUpdate j)); try discriminate; [reflexivity|].
      cbn [mem_step]. destruct (mem_update (c_mem s) j) as [m1 r]. injection Ec as <- _ _. reflexivity.
    + assert (m' = c_mem s /\ c' = mk_call o (PcDone r) cid) as [-> ->]
        by (destruct o; injection Ec as <- <- <-; auto).
      rewrite <- El. destruct s; exact Hi.
  - destruct Hi as [Hl Hi]. split; cbn [fst c_mem c_streams m_subs mem_subscribe set_subs m_jobs m_paused].
    + rewrite !app_length, Hl. reflexivity.
    + intros Hpa k ph t sb kj Hk Hs Hsb Hq Hkj Hw Hex.
      assert (Hlt : (k < length (c_streams s))%nat).
      { destruct (lt_dec k (length (c_streams s))) as [H|H]; [exact H|exfalso].
        rewrite nth_error_app2 in Hk by lia. destruct (k - length (c_streams s))%nat as [|n]; cbn in Hk.
        - injection Hk as <-. discriminate Hs.
        - destruct n; discriminate Hk. }
      rewrite nth_error_app1 in Hk by lia. rewrite nth_error_app1 in Hsb by lia.
      exact (Hi Hpa k ph t sb kj Hk Hs Hsb Hq Hkj Hw Hex).
  - destruct (nth_error (c_streams s) k) as [ph|] eqn:Ek; [|exact Hi].
    destruct (nth_error (m_subs (c_mem s)) k) as [sb|] eqn:Esb; [|exact Hi].
    destruct (stream_step p k now (c_mem s) sb ph) as [[m' ph'] ev'] eqn:Es. cbn [fst].
    assert (H0 : wake_inv (mk_c m' (c_calls s) (c_streams s))).
    { destruct (stream_step_mem _ _ _ _ _ _ _ _ _ Es) as [->|[Hm _]]; [destruct s; exact Hi|].
      pose proof (mem_step_avail p now (c_mem s) (OpLoad (sub_executor sb)) eq_refl ltac:(discriminate)) as H.
      cbn zeta in H. replace (fst (mem_step p now (c_mem s) (OpLoad (sub_executor sb)))) with m' in H
        by (rewrite Hm; cbn [mem_step]; destruct (mem_load _ _ _ _); reflexivity).
      destruct H as [H1 [H2 H3]]. apply wake_inv_mem; auto.
      - intros Hpa k' Hk' Hw. destruct (H3 Hpa k' Hk' Hw); auto. }
    destruct H0 as [Hl0 H0]. cbn [c_mem c_streams c_calls] in *.
    split; cbn [c_mem c_streams c_calls].
    { rewrite set_nth_map_length. exact Hl0. }
    intros Hpa k' ph0 t sb' kj Hk Hs Hsb Hq Hkj Hw Hex.
    rewrite set_nth_nth, Ek in Hk. destruct (Nat.eqb k k') eqn:Ekk.
    + apply Nat.eqb_eq in Ekk. subst k'. injection Hk as <-.
      assert (Hsee : seen_of ph = Some t \/ (ph = SCheck /\ next_available (sub_executor sb) (c_mem s) = Ok t /\ m' = c_mem s)).
      { clear - Es Hs. unfold stream_step in Es. destruct ph as [|t0|t0 rd d|t0 rd d|t0 rd sl d|r|].
        - destruct (next_available _ _) as [t'| |]; injection Es as <- <- <-; cbn in Hs; try discriminate. injection Hs as ->. auto.
        - injection Es as <- <- <-. left. destruct (_ <=? _); exact Hs.
        - destruct (mem_load _ _ _ _) as [m1 [[j|]|err|]]; injection Es as <- <- <-; try discriminate Hs. left. exact Hs.
        - injection Es as <- <- <-. left. exact Hs.
        - injection Es as <- <- <-. destruct (_ <=? _); [discriminate Hs|]. left. exact Hs.
        - injection Es as <- <- <-. discriminate Hs.
        - injection Es as <- <- <-. discriminate Hs. }
      destruct Hsee as [Hsee|[-> [Hnx ->]]].
      * exact (H0 Hpa k ph t sb' kj Ek Hsee Hsb Hq Hkj Hw Hex).
      * left. apply next_available_spec in Hnx. destruct Hnx as [Hnx _].
        assert (sb' = sb) by congruence. subst sb'. apply Hnx; auto.
    + exact (H0 Hpa k' ph0 t sb' kj Hk Hs Hsb Hq Hkj Hw Hex).
  - destruct (nth_error (c_streams s) k) as [[| | | |t rd sl d| |]|] eqn:Ek; try exact Hi.
    destruct (nth_error (m_subs (c_mem s)) k) as [sb|] eqn:Esb; [|exact Hi].
    destruct (sub_queue sb) eqn:Eq; [exact Hi|]. cbn [fst].
    destruct Hi as [Hl Hi]. split; cbn [c_mem c_streams m_subs set_subs m_jobs m_paused].
    { rewrite !set_nth_map_length. exact Hl. }
    intros Hpa k' ph0 t' sb' kj Hk Hs Hsb Hq Hkj Hw Hex.
    rewrite set_nth_nth in Hk. rewrite set_nth_nth in Hsb. destruct (Nat.eqb k k') eqn:Ekk.
    + rewrite Ek in Hk. injection Hk as <-. discriminate Hs.
    + exact (Hi Hpa k' ph0 t' sb' kj Hk Hs Hsb Hq Hkj Hw Hex).
Qed.

(** The recorded delay is the one computed from what was seen. *)
Definition delay_ok (ph : sphase) : Prop :=
  match ph with
  | SLoad t rd d => d = stream_delay t rd /\ d <= delta
  | SSelect t rd d | SWait t rd _ d => d = stream_delay t rd
  | _ => True
  end.

Lemma delay_step p s l :
  Forall delay_ok (c_streams s) -> Forall delay_ok (c_streams (fst (conc_step p s l))).
Proof.
  intro Hi.
  assert (Hset : forall k ph, delay_ok ph -> Forall delay_ok (set_nth k ph (c_streams s))).
  { intros k ph Hph. revert k. induction Hi as [|x l' Hx Hl IH]; intros [|k]; cbn; constructor; auto. }
  destruct l as [o|i now|ex|k now|k]; cbn [conc_step].
  - destruct o; exact Hi.
  - destruct (nth_error (c_calls s) i) as [c|]; [|exact Hi].
    destruct (call_step _ _ _ _ _) as [[m' c'] ev']. exact Hi.
  - cbn. apply Forall_app. split; [exact Hi|]. constructor; [exact I | constructor].
  - destruct (nth_error (c_streams s) k) as [ph|] eqn:Ek; [|exact Hi].
    destruct (nth_error (m_subs (c_mem s)) k) as [sb|]; [|exact Hi].
    destruct (stream_step p k now (c_mem s) sb ph) as [[m' ph'] ev'] eqn:Es. cbn [fst c_streams].
    apply Hset. apply nth_error_In in Ek. rewrite Forall_forall in Hi. apply Hi in Ek.
    clear - Es Ek. unfold stream_step in Es. destruct ph as [|t0|t0 rd d|t0 rd d|t0 rd sl d|r|].
    + destruct (next_available _ _) as [t'| |]; injection Es as <- <- <-; exact I.
    + injection Es as <- <- <-. destruct (stream_delay t0 now <=? delta) eqn:E; cbn; [|reflexivity].
      split; [reflexivity | apply Z.leb_le; exact E].
    + destruct Ek as [Ek1 Ek2].
      destruct (mem_load _ _ _ _) as [m1 [[j|]|err|]]; injection Es as <- <- <-; try exact I. exact Ek1.
    + injection Es as <- <- <-. exact Ek.
    + injection Es as <- <- <-. destruct (_ <=? _); [exact I | exact Ek].
    + injection Es as <- <- <-. exact I.
    + injection Es as <- <- <-. exact I.
  - destruct (nth_error (c_streams s) k) as [[| | | |t rd sl d| |]|]; try exact Hi.
    destruct (nth_error (m_subs (c_mem s)) k) as [sb|]; [|exact Hi]. destruct (sub_queue sb); [exact Hi|].
    apply Hset. exact I.
Qed.

Lemma stream_inv p ls : forall s,
  no_sub s -> wake_inv s -> Forall delay_ok (c_streams s) ->
  let s' := conc_run p s ls in no_sub s' /\ wake_inv s' /\ Forall delay_ok (c_streams s').
Proof.
  induction ls as [|l ls IH]; intros s H1 H2 H3; cbn [conc_run]; [auto|].
  apply IH; [apply no_sub_step | apply wake_inv_step | apply delay_step]; auto.
Qed.

Lemma stream_inv_init p ls :
  let s := conc_run p c_init ls in wake_inv s /\ Forall delay_ok (c_streams s).
Proof.
  apply stream_inv; [intros c ex [] | split; [reflexivity|] | constructor].
  intros _ k ph t sb kj Hk. destruct k; discriminate Hk.
Qed.

Lemma stream_delay_spec t rd :
  0 <= stream_delay t rd <= 30 * 1000000000
  /\ forall ts, t = Some ts -> rd + stream_delay t rd <= Z.max ts (rd + 15 * 1000000).
Proof.
  unfold stream_delay, default_delay, delta, to_std, dt_diff, ns_per_s, ns_per_ms.
  destruct t as [ts|]; [|split; [lia | discriminate]].
  destruct (ts - rd <? 0) eqn:E; [apply Z.ltb_lt in E | apply Z.ltb_ge in E];
    (split; [lia|]); intros ts' H; injection H as <-; lia.
Qed.

(** * C29 *)

Lemma no_lost_wake_up_lemma p ls k seen rd sl d sb j :
  let s := conc_run p c_init ls in
  m_paused (c_mem s) = false ->
  nth_error (c_streams s) k = Some (SWait seen rd sl d) ->
  nth_error (m_subs (c_mem s)) k = Some sb -> sub_queue sb = [] ->
  In j (jobs_of (c_mem s)) -> waiting j -> j_executor j = sub_executor sb ->
  rd + d <= Z.max (j_scheduled_at j) (rd + 15 * 1000000)
  \/ about_to_notify s (sub_executor sb).
Proof.
  cbn zeta. intros Hpa Hk Hsb Hq Hj Hw Hex. destruct (stream_inv_init p ls) as [[_ Hi] Hd]. cbn zeta in *.
  apply in_map_iff in Hj. destruct Hj as [kj [<- Hkj]].
  destruct (Hi Hpa k _ seen sb kj Hk eq_refl Hsb Hq Hkj Hw Hex) as [[ts [-> Hts]]|H]; [left|auto].
  apply nth_error_In in Hk. rewrite Forall_forall in Hd. apply Hd in Hk. cbn [delay_ok] in Hk. subst d.
  destruct (stream_delay_spec (Some ts) rd) as [_ H]. specialize (H ts eq_refl). eapply Z.le_trans; [exact H|]. apply Z.max_le_compat_r. exact Hts.
Qed.

(** * C30 *)

Lemma sleeps_lemma p ls k seen rd sl d :
  nth_error (c_streams (conc_run p c_init ls)) k = Some (SWait seen rd sl d) ->
  0 <= d <= 30 * 1000000000
  /\ forall ts, seen = Some ts -> rd + d <= Z.max ts (rd + 15 * 1000000).
Proof.
  intro Hk. destruct (stream_inv_init p ls) as [_ Hd]. cbn zeta in *.
  apply nth_error_In in Hk. rewrite Forall_forall in Hd. apply Hd in Hk. cbn [delay_ok] in Hk. subst d.
  apply stream_delay_spec.
Qed.

Lemma wakes_lemma p s k sb j now1 now2 now3 :
  m_poisoned (c_mem s) = false -> counters_in_range (c_mem s) ->
  nth_error (c_streams s) k = Some SCheck -> nth_error (m_subs (c_mem s)) k = Some sb ->
  In j (jobs_of (c_mem s)) -> waiting j -> j_executor j = sub_executor sb ->
  j_scheduled_at j <= now2 -> j_scheduled_at j <= now3 ->
  exists j', nth_error (c_streams (conc_run p s [LStream k now1; LStream k now2; LStream k now3])) k
             = Some (SYield (Ok j'))
    /\ conc_trace p s [LStream k now1; LStream k now2; LStream k now3] = [EvHandOut k j'].
Proof.
  intros Hp Hc Hk Hsb Hj Hw Hex Hd2 Hd3. apply in_map_iff in Hj. destruct Hj as [kj [<- Hkj]].
  assert (Hn : exists ts, next_available (sub_executor sb) (c_mem s) = Ok (Some ts) /\ ts <= j_scheduled_at (kj_job kj)).
  { destruct (next_available (sub_executor sb) (c_mem s)) as [t|err|] eqn:Ena.
    2,3: exfalso; unfold next_available, mem_query, matching_jobs in Ena; rewrite Hp in Ena; discriminate Ena.
    destruct (next_available_spec _ _ _ Ena) as [Hn _].
    destruct (Hn kj Hkj Hw Hex) as [ts [-> Hts]]. eauto. }
  destruct Hn as [ts [Hn Hts]].
  assert (Hdel : stream_delay (Some ts) now2 <=? delta = true).
  { unfold stream_delay, delta, default_delay, to_std, dt_diff, ns_per_s, ns_per_ms.
    apply Z.leb_le. destruct (ts - now2 <? 0) eqn:E; [apply Z.ltb_lt in E | apply Z.ltb_ge in E]; lia. }
  assert (Hone : forall s0 ph now m' ph' ev, c_mem s0 = c_mem s -> nth_error (c_streams s0) k = Some ph ->
            stream_step p k now (c_mem s) sb ph = (m', ph', ev) ->
            conc_step p s0 (LStream k now) = (mk_c m' (c_calls s0) (set_nth k ph' (c_streams s0)), ev)
            /\ nth_error (set_nth k ph' (c_streams s0)) k = Some ph').
  { intros s0 ph now m' ph' ev Hm Hs0 Hst. cbn [conc_step]. rewrite Hm, Hs0, Hsb, Hst. split; [reflexivity|].
    rewrite set_nth_nth, Nat.eqb_refl, Hs0. reflexivity. }
  assert (H3 : exists m' j', mem_load p now3 (c_mem s) (sub_executor sb) = (m', Ok (Some j'))).
  { pose proof (mem_load_spec p now3 (c_mem s) (sub_executor sb) Hp) as Hl.
    destruct (mem_load p now3 (c_mem s) (sub_executor sb)) as [m' [[j'|]|err|]].
    - eauto.
    - exfalso. destruct Hl as [_ Hl]. apply (Hl kj Hkj). unfold due. repeat split; auto. lia.
    - destruct Hl.
    - exfalso. destruct Hl as [_ [k0 [H1 [H2 H3]]]]. apply job_executing_none in H3.
      assert (Hcr := Hc (kj_job k0) ltac:(apply in_map; exact H1)). lia. }
  destruct H3 as [m3 [j' H3]]. exists j'.
  destruct (Hone s SCheck now1 (c_mem s) (SGot (Some ts)) [] eq_refl Hk) as [E1 N1].
  { cbn [stream_step]. rewrite Hn. reflexivity. }
  destruct (Hone (mk_c (c_mem s) (c_calls s) (set_nth k (SGot (Some ts)) (c_streams s))) _ now2 (c_mem s) (SLoad (Some ts) now2 (stream_delay (Some ts) now2)) [] eq_refl N1) as [E2 N2].
  { cbn [stream_step]. rewrite Hdel. reflexivity. }
  cbn [c_calls c_streams] in E2, N2.
  match type of N2 with nth_error ?l _ = _ => set (l2 := l) in * end.
  destruct (Hone (mk_c (c_mem s) (c_calls s) l2) _ now3 m3 (SYield (Ok j')) [EvHandOut k j'] eq_refl N2) as [E3 N3].
  { cbn [stream_step]. rewrite H3. reflexivity. }
  cbn [c_calls c_streams] in E3, N3.
  unfold conc_run, conc_trace. rewrite E1. cbn [fst snd app]. rewrite E2. cbn [fst snd app].
  rewrite E3. cbn [fst snd app c_streams]. auto.
Qed.

(** The pending notification reaches the stream. *)
Lemma notify_reaches p s i id e drew now k sb :
  m_paused (c_mem s) = false ->
  nth_error (c_calls s) i = Some (mk_call (OpEnqueue e) (PcNotify id) drew) ->
  nth_error (m_subs (c_mem s)) k = Some sb -> sub_executor sb = eq_executor e ->
  exists sb', nth_error (m_subs (c_mem (fst (conc_step p s (LRun i now))))) k = Some sb'
    /\ sub_queue sb' = sub_queue sb ++ [eq_scheduled_at e].
Proof.
  intros Hpa Hi Hsb Hex. cbn [conc_step]. rewrite Hi. cbn. unfold notify_subscribers. rewrite Hpa. cbn.
  rewrite nth_error_map, Hsb. cbn. rewrite Hex, String.eqb_refl. eexists. split; reflexivity.
Qed.

(** * A call that nobody interrupts *)

Fixpoint iter_call p i now (n : nat) (m : mem) (c : call) : mem * call :=
  match n with
  | O => (m, c)
  | S n => let '(m', c', _) := call_step p i now m c in iter_call p i now n m' c'
  end.

Lemma run_calls p i now n : forall s c,
  nth_error (c_calls s) i = Some c ->
  let s' := conc_run p s (repeat (LRun i now) n) in
  c_mem s' = fst (iter_call p i now n (c_mem s) c)
  /\ nth_error (c_calls s') i = Some (snd (iter_call p i now n (c_mem s) c))
  /\ c_streams s' = c_streams s.
Proof.
  induction n as [|n IH]; intros s c H; cbn [repeat conc_run iter_call]; [auto|].
  cbn [conc_step]. rewrite H. destruct (call_step p i now (c_mem s) c) as [[m' c'] ev]. cbn [fst snd].
  apply (IH (mk_c m' (set_nth i c' (c_calls s)) (c_streams s)) c').
  cbn [c_calls]. rewrite set_nth_nth, Nat.eqb_refl, H. reflexivity.
Qed.

Lemma iter_calls_mem p i now m o :
  iter_call p i now 4 m (mk_call o PcStart None) =
  (fst (mem_step p now m o),
   mk_call o (PcDone (snd (mem_step p now m o)))
     (cl_id (snd (iter_call p i now 4 m (mk_call o PcStart None))))).
Proof.
  assert (Hd : forall n r d m, iter_call p i now n m (mk_call o (PcDone r) d) = (m, mk_call o (PcDone r) d)).
  { induction n as [|n IH]; intros r d m0; cbn [iter_call]; [reflexivity|].
    replace (call_step p i now m0 (mk_call o (PcDone r) d)) with (m0, mk_call o (PcDone r) d, @nil cevent)
      by (destruct o; reflexivity). apply IH. }
  destruct (is_enq o) eqn:Eo.
  - destruct o as [e| | | | | | | | | | | | |]; try discriminate Eo.
    cbn [iter_call mem_step]. unfold call_step at 1 5. cbn [cl_pc cl_op cl_id].
    unfold mem_enqueue, insert_unique_job. destruct (eq_criteria e) as [uq|].
    + destruct (matching_jobs (enqueuable_matches now e) m) as [[|k ks]|err|].
      * cbn. destruct (m_poisoned m) eqn:Hp; cbn; unfold insert_new_job; cbn; rewrite Hp; reflexivity.
      * cbn. destruct (mem_update m (job_replace e (kj_job k))) as [m' [u|err|]]; reflexivity.
      * reflexivity.
      * reflexivity.
    + cbn. destruct (m_poisoned m) eqn:Hp; cbn; unfold insert_new_job; cbn; rewrite Hp; reflexivity.
  - replace (iter_call p i now 4 m (mk_call o PcStart None))
      with (let (m', r) := mem_step p now m o in iter_call p i now 3 m' (mk_call o (PcDone r) None)).
    + destruct (mem_step p now m o) as [m' r]. rewrite Hd. reflexivity.
    + change (iter_call p i now 4 m (mk_call o PcStart None)) with
        (let '(m', c', _) := call_step p i now m (mk_call o PcStart None) in iter_call p i now 3 m' c').
      unfold call_step at 1. cbn [cl_pc cl_op cl_id].
      destruct o; try discriminate Eo; destruct (mem_step _ _ _ _); reflexivity.
Qed.
