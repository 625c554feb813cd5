(** Lemmas about where the calls in progress come from. *)
From Coq Require Import Permutation Sorted.
From Verif Require Import Base Chrono Types TypesProofs Query QueryProofs Memory MemSpec MemProofs
  MemInv MemWake PgRow PgQuery Pg PgSpec PgProofs PgQueryProofs PgOps PgHist PgConc PgConcSpec PgConcProofs PgConcHist PgConcUniq.

Section Past.
Variable ident : option Z -> option string -> list status -> Z.

Lemma call_step_cases s l i c' : nth_error (q_calls (fst (qstep ident s l))) i = Some c' ->
  nth_error (q_calls s) i = Some c' \/ (exists o, l = QCall o /\ c' = mk_qcall o QStart)
  \/ (exists now pick c t' ev, l = QRun i now pick /\ nth_error (q_calls s) i = Some c
        /\ action ident i now pick (q_calls s) (q_tbl s) c = (t', qc_pc c', ev) /\ qc_op c' = qc_op c
        /\ snd (qstep ident s l) = ev)
  \/ (exists e c, l = QAbort i e /\ nth_error (q_calls s) i = Some c /\ c' = mk_qcall (qc_op c) (QDone (failed (qc_op c) e))).
Proof.
  intro H. destruct l as [o|k now pick|k e].
  - cbn [qstep fst q_calls] in H. apply nth_snoc in H. destruct H as [H| ->]; [left; exact H|right; left; eauto].
  - destruct (nth_error (q_calls s) k) as [c|] eqn:Hc; [|cbn [qstep] in H; rewrite Hc in H; left; exact H].
    destruct (qstep_run ident s k now pick c Hc) as [t' [pc' [ev [Hact E]]]]. rewrite E in *. cbn [fst snd q_calls] in *.
    apply nth_set in H. destruct H as [[-> [-> _]]|[_ H]]; [|left; exact H]. right. right. left.
    exists now, pick, c, t', ev. cbn [qc_op qc_pc]. auto.
  - cbn [qstep] in H. destruct (nth_error (q_calls s) k) as [c|] eqn:Hc; [|left; exact H]. cbn [fst q_calls] in H.
    apply nth_set in H. destruct H as [[-> [-> _]]|[_ H]]; [|left; exact H].
    right. right. right. exists e, c. auto.
Qed.

Lemma qrun_snoc s ls l : qrun ident s (ls ++ [l]) = fst (qstep ident (qrun ident s ls) l).
Proof. rewrite qrun_app. reflexivity. Qed.
Lemma qtrace_snoc s ls l : qtrace ident s (ls ++ [l]) = qtrace ident s ls ++ snd (qstep ident (qrun ident s ls) l).
Proof. rewrite qtrace_app. cbn [qtrace]. rewrite app_nil_r. reflexivity. Qed.

(** * The time a call began is when it first ran *)

Definition began (pc : qpc) : option time :=
  match pc with
  | QScan n _ | QHeld n _ | QBegun n | QAlone n | QFree n | QFound n _ | QReplacing n _ | QDrawn n _ | QDooming n _ _ => Some n
  | QStart | QDone _ => None
  end.
Lemma action_began i now pick cs t c t' pc' ev n : action ident i now pick cs t c = (t', pc', ev) -> began pc' = Some n ->
  n = now \/ began (qc_pc c) = Some n.
Proof.
  destruct c as [o pc]. unfold action. cbn [qc_op qc_pc].
  assert (Hrow : forall id, row_action ident i now cs t o id pc = (t', pc', ev) -> began pc' = Some n -> n = now \/ began pc = Some n).
  { intro id. unfold row_action. destruct pc; intros H Hb; try (injection H as <- <- <-; cbn in Hb; right; exact Hb).
    - destruct (find_row id (t_rows t)); injection H as <- <- <-; [|discriminate]. destruct (row_locked cs id); [discriminate|]. left. injection Hb. auto.
    - destruct (pg_step ident now0 t o). injection H as <- <- <-. discriminate. }
  assert (Hplain : match pc with QStart => (t, QDone (snd (pg_step ident now t o)), @nil qevent) | _ => (t, pc, []) end = (t', pc', ev) ->
     began pc' = Some n -> n = now \/ began pc = Some n).
  { destruct pc; intros H Hb; injection H as <- <- <-; right; exact Hb. }
  assert (Hdraw : forall m e, (let (t1, p1) := draw m t e in (t1, p1, @nil qevent)) = (t', pc', ev) -> began pc' = Some n -> n = m).
  { intros m e. unfold draw. destruct (negb _); [intros H Hb; injection H as <- <- <-; discriminate|].
    destruct (_ <? _); intros H Hb; injection H as <- <- <-; [discriminate|]. injection Hb. auto. }
  destruct o; cbn [target]; try (apply Hrow); try (intros H; apply Hplain; destruct pc; exact H).
  - destruct (eq_criteria e) as [uq|].
    + unfold unique_action. destruct pc; intros H Hb; try (injection H as <- <- <-; right; exact Hb).
      * injection H as <- <- <-. left. injection Hb. auto.
      * injection H as <- <- <-. right. destruct (advisory_held _ _ _); exact Hb.
      * destruct (pg_window uq (eq_scheduled_at e)); [|injection H as <- <- <-; discriminate].
        destruct (negb _); [injection H as <- <- <-; discriminate|]. destruct (nth_error _ _); injection H as <- <- <-; [|right; exact Hb].
        destruct (uc_on_conflict uq); [discriminate|]. destruct (existsb _ _); [right; exact Hb|discriminate].
      * right. cbn. f_equal. symmetry. eapply Hdraw; eauto.
      * destruct (find_row id (t_rows t)); [injection H as <- <- <-; destruct (row_locked cs id); right; exact Hb|].
        destruct (uc_on_conflict uq); [injection H as <- <- <-; right; exact Hb|]. unfold commit_replace in H.
        destruct (pg_replace _ _ _ _); injection H as <- <- <-; discriminate.
      * destruct (uc_on_conflict uq); [injection H as <- <- <-; right; exact Hb|]. unfold commit_replace in H.
        destruct (pg_replace _ _ _ _); injection H as <- <- <-; discriminate.
      * unfold commit_insert in H. injection H as <- <- <-. discriminate.
    + unfold insert_action. destruct pc; intros H Hb; try (injection H as <- <- <-; right; exact Hb).
      * left. eapply Hdraw; eauto.
      * unfold commit_insert in H. injection H as <- <- <-. discriminate.
  - unfold load_action. destruct pc; intros H Hb; try (injection H as <- <- <-; right; exact Hb).
    + destruct (negb _); injection H as <- <- <-; [discriminate|]. left. injection Hb. auto.
    + destruct ids as [|id ids]; [injection H as <- <- <-; discriminate|]. injection H as <- <- <-. right.
      destruct (row_locked cs id); [exact Hb|]. destruct (find_row id (t_rows t)) as [r|]; [|exact Hb]. destruct (pg_ready now0 executor r); exact Hb.
    + destruct (find_row id (t_rows t)) as [r|]; [|injection H as <- <- <-; discriminate].
      destruct (update_rows _ _ _) as [[l m]|]; [|injection H as <- <- <-; discriminate].
      destruct (pg_take now0 r); injection H as <- <- <-; discriminate.
  - unfold prune_action. destruct pc; intros H Hb; try (injection H as <- <- <-; right; exact Hb).
    + destruct (pg_doomed now ps (t_rows t)) as [[ids|]|]; [|injection H as <- <- <-; discriminate|injection H as <- <- <-; discriminate].
      destruct (pg_spec_ok _); injection H as <- <- <-; [|discriminate]. left. injection Hb. auto.
    + destruct rest as [|id rest]; [injection H as <- <- <-; discriminate|]. injection H as <- <- <-. right.
      destruct (find_row id (t_rows t)); [|exact Hb]. destruct (row_locked cs id); exact Hb.
Qed.

Lemma began_label t ls : forall i c n, nth_error (q_calls (qrun ident (opened t) ls)) i = Some c -> began (qc_pc c) = Some n ->
  exists p, In (QRun i n p) ls.
Proof.
  induction ls as [|l ls IH] using rev_ind; intros i c n Hc Hb; [destruct i; discriminate|].
  rewrite qrun_snoc in Hc. apply call_step_cases in Hc.
  assert (Hold : (exists p, In (QRun i n p) ls) -> exists p, In (QRun i n p) (ls ++ [l])).
  { intros [p Hp]. exists p. apply in_or_app. left. exact Hp. }
  destruct Hc as [Hc|[[o [-> ->]]|[[now [pick [c0 [t' [ev [-> [Hc0 [Hact _]]]]]]]]|[er [cx [-> [_ ->]]]]]]]; try discriminate Hb.
  - apply Hold. eapply IH; eauto.
  - destruct (action_began _ _ _ _ _ _ _ _ _ _ Hact Hb) as [->|Hb0]; [exists pick; apply in_or_app; right; left; reflexivity|].
    apply Hold. eapply IH; eauto.
Qed.

(** * What a prune deletes it selected when it began *)

Lemma doomed_prunable now ps rows ids : kept_cutoff now ps -> NoDup (map r_id rows) -> pg_doomed now ps rows = Some (Some ids) ->
  forall id, In id ids -> exists r, r_id r = id /\ row_prunable now ps rows r.
Proof.
  intros Hk Hn Hd id Hin. unfold pg_doomed in Hd. unfold kept_cutoff in Hk.
  assert (Hscope : forall r, In r (filter (pg_in_scope ps) rows) <-> In r rows /\ row_in_scope ps r).
  { intro r. rewrite filter_In. unfold pg_in_scope, row_in_scope, named. rewrite andb_true_iff, String.eqb_eq, spelled_label.
    apply and_iff_compat_l, and_iff_compat_l. destruct (ps_executors ps) as [l|l].
    - rewrite forallb_forall. split.
      + intros H Hx. specialize (H _ Hx). rewrite String.eqb_refl in H. discriminate.
      + intros H x Hx. apply negb_true_iff, String.eqb_neq. intro E. apply H. first [rewrite <- E; exact Hx|rewrite E; exact Hx].
    - rewrite existsb_exists. split; [intros [x [H1 H2]]; apply String.eqb_eq in H2; congruence|intro H; exists (r_executor r); split; [exact H|apply String.eqb_refl]]. }
  destruct (ps_by ps) as [d|n] eqn:Eby.
  - assert (Hage : (in_past (ps_status ps) = true /\ (exists c, dt_sub now d = Some c /\ ids = map r_id (filter (fun r => r_scheduled_at r <? pg_time c) (filter (pg_in_scope ps) rows))))
       \/ (in_past (ps_status ps) = false /\ (exists c, dt_add now d = Some c /\ ids = map r_id (filter (fun r => pg_time c <? r_scheduled_at r) (filter (pg_in_scope ps) rows))))).
    { destruct (in_past (ps_status ps)).
      - left. split; [reflexivity|]. destruct (dt_sub now d) as [c|]; [|discriminate]. destruct (time_ok c); [|discriminate]. injection Hd as <-. eauto.
      - right. split; [reflexivity|]. destruct (dt_add now d) as [c|]; [|discriminate]. destruct (time_ok c); [|discriminate]. injection Hd as <-. eauto. }
    destruct Hage as [[Hp [c [Hc ->]]]|[Hp [c [Hc ->]]]]; apply in_map_iff in Hin; destruct Hin as [r [<- Hr]];
      apply filter_In in Hr; destruct Hr as [Hr Ht]; apply Hscope in Hr; destruct Hr as [Hr Hs];
      exists r; (split; [reflexivity|]); (split; [exact Hr|]); (split; [exact Hs|]); rewrite Eby; apply Z.ltb_lt in Ht.
    + unfold dt_sub in Hc. destruct (in_dt (now - d)); [|discriminate]. injection Hc as <-.
      destruct (ps_status ps); try discriminate Hp; destruct Hk as [Hk _]; destruct (pg_time_kept _ Hk) as [Hk1 _]; rewrite Hk1 in Ht; exact Ht.
    + unfold dt_add in Hc. destruct (in_dt (now + d)); [|discriminate]. injection Hc as <-.
      destruct (ps_status ps); try discriminate Hp; destruct Hk as [Hk _]; destruct (pg_time_kept _ Hk) as [Hk1 _]; rewrite Hk1 in Ht; exact Ht.
  - injection Hd as <-. set (le_at := if in_past (ps_status ps) then _ else _) in Hin.
    assert (Hsorted : StronglySorted (fun a b => le_at a b = true) (stable_sort le_at (filter (pg_in_scope ps) rows))
       /\ Permutation (filter (pg_in_scope ps) rows) (stable_sort le_at (filter (pg_in_scope ps) rows))).
    { unfold le_at. destruct (in_past (ps_status ps)); apply stable_sort_sorted; intros; rewrite ?Z.leb_le in *; lia. }
    destruct Hsorted as [Hsort Hperm]. set (l := stable_sort le_at (filter (pg_in_scope ps) rows)) in *.
    assert (Hl : NoDup (map r_id l)).
    { apply Permutation_NoDup with (l := map r_id (filter (pg_in_scope ps) rows)); [apply Permutation_map, Hperm|apply nodup_filter_map, Hn]. }
    assert (Hmem : forall x, In x l -> In x rows /\ row_in_scope ps x).
    { intros x Hx. apply Hscope. apply (Permutation_in _ (Permutation_sym Hperm)). exact Hx. }
    apply in_map_iff in Hin. destruct Hin as [r [<- Hr]].
    assert (Hrl : In r l) by (rewrite <- (firstn_skipn (Z.to_nat n) l); apply in_or_app; right; exact Hr).
    destruct (Hmem r Hrl) as [H1 H2]. exists r. split; [reflexivity|]. split; [exact H1|]. split; [exact H2|]. rewrite Eby.
    exists (firstn (Z.to_nat n) l). split; [|split].
    + apply firstn_length_le. destruct (le_lt_dec (Z.to_nat n) (length l)) as [Hle|Hlt]; [exact Hle|].
      rewrite skipn_all2 in Hr; [destruct Hr|lia].
    + rewrite <- (firstn_skipn (Z.to_nat n) l), map_app in Hl. clear -Hl. induction (map r_id (firstn (Z.to_nat n) l)) as [|x m IH]; [constructor|].
      cbn in Hl. inversion Hl as [|? ? Hx Hm]. constructor; [intro K; apply Hx, in_or_app; left; exact K|apply IH, Hm].
    + intros x Hx. assert (Hxl : In x l) by (rewrite <- (firstn_skipn (Z.to_nat n) l); apply in_or_app; left; exact Hx).
      destruct (Hmem x Hxl) as [K1 K2]. split; [exact K1|]. split; [exact K2|].
      assert (Hxr : le_at x r = true /\ r_id x <> r_id r).
      { rewrite <- (firstn_skipn (Z.to_nat n) l) in Hsort, Hl. revert Hsort Hl Hx Hr. generalize (firstn (Z.to_nat n) l), (skipn (Z.to_nat n) l). clear.
        intros a b Hsort Hl Hx Hr. induction a as [|y a IH]; [destruct Hx|]. cbn [app] in *. inversion Hsort as [|? ? Hs Hf]. cbn [map] in Hl. inversion Hl as [|? ? Hy Hm].
        destruct Hx as [->|Hx]; [|apply IH; assumption]. rewrite Forall_forall in Hf. split; [apply Hf, in_or_app; right; exact Hr|].
        intro E. apply Hy. rewrite E. apply in_map, in_or_app. right. exact Hr. }
      destruct Hxr as [Hle Hne]. split; [exact Hne|]. unfold le_at in Hle. destruct (ps_status ps); cbn [in_past] in Hle; apply Z.leb_le in Hle; exact Hle.
Qed.

Lemma dooming_past t ls : forall i ps n taken rest, 
  nth_error (q_calls (qrun ident (opened t) ls)) i = Some (mk_qcall (OpPrune ps) (QDooming n taken rest)) ->
  exists ls1 p ls2 ids, ls = ls1 ++ QRun i n p :: ls2
    /\ pg_doomed n ps (t_rows (q_tbl (qrun ident (opened t) ls1))) = Some (Some ids)
    /\ forall id, In id (taken ++ rest) -> In id ids.
Proof.
  induction ls as [|l ls IH] using rev_ind; intros i ps n taken rest Hc; [destruct i; discriminate|].
  rewrite qrun_snoc in Hc. apply call_step_cases in Hc.
  destruct Hc as [Hc|[[o [-> Hc]]|[[now [pick [c0 [t' [ev [-> [Hc0 [Hact [Ho _]]]]]]]]]|[er [cx [-> [_ Hc]]]]]]]; try discriminate Hc.
  - destruct (IH i ps n taken rest Hc) as [ls1 [p [ls2 [ids [-> H]]]]]. exists ls1, p, (ls2 ++ [l]), ids. rewrite <- app_assoc. split; [reflexivity|exact H].
  - destruct c0 as [o pc]. cbn [qc_op qc_pc] in *. subst o. unfold action in Hact. cbn [qc_op qc_pc] in Hact. unfold prune_action in Hact.
    assert (Hold : forall tk rs, (forall id, In id (taken ++ rest) -> In id (tk ++ rs)) -> pc = QDooming n tk rs ->
      exists ls1 p ls2 ids, ls ++ [QRun i now pick] = ls1 ++ QRun i n p :: ls2
        /\ pg_doomed n ps (t_rows (q_tbl (qrun ident (opened t) ls1))) = Some (Some ids) /\ forall id, In id (taken ++ rest) -> In id ids).
    { intros tk rs Hsub ->. destruct (IH i ps n tk rs Hc0) as [ls1 [p [ls2 [ids [-> [H1 H2]]]]]]. exists ls1, p, (ls2 ++ [QRun i now pick]), ids.
      rewrite <- app_assoc. split; [reflexivity|]. split; [exact H1|]. intros id Hid. apply H2, Hsub, Hid. }
    destruct pc; try discriminate Hact.
    + destruct (pg_doomed now ps (t_rows (q_tbl (qrun ident (opened t) ls)))) as [[ids|]|] eqn:Ed; [|discriminate|discriminate].
      destruct (pg_spec_ok (ps_executors ps)); [|discriminate]. injection Hact as _ <- <- <- _. exists ls, pick, [], ids.
      split; [reflexivity|]. split; [exact Ed|]. intros id Hid. exact Hid.
    + destruct rest0 as [|id0 rest0]; [discriminate|]. injection Hact as _ Hact _.
      destruct (find_row id0 _).
      * destruct (row_locked _ id0); injection Hact as -> <- <-; eapply Hold; try reflexivity.
        -- auto.
        -- intros id Hid. destruct Hid as [<-|Hid]; [apply in_or_app; right; left; reflexivity|]. apply in_app_or in Hid. apply in_or_app. destruct Hid; [auto|right; right; assumption].
      * injection Hact as -> <- <-. eapply Hold; try reflexivity. intros id Hid. apply in_app_or in Hid. apply in_or_app. destruct Hid; [auto|right; right; assumption].
Qed.

Lemma deletes_past t ls i rows : sound_table t -> In (QvDelete i rows) (qtrace ident (opened t) ls) ->
  exists ls1 now p ls2 ps, ls = ls1 ++ QRun i now p :: ls2
    /\ (exists c, nth_error (q_calls (qrun ident (opened t) ls)) i = Some c /\ qc_op c = OpPrune ps)
    /\ (kept_cutoff now ps -> forall r, In r rows ->
          exists r0, r_id r0 = r_id r /\ row_prunable now ps (t_rows (q_tbl (qrun ident (opened t) ls1))) r0).
Proof.
  intros Ht Hin. apply in_split in Hin. destruct Hin as [A [B E]].
  destruct (trace_split ident ls _ A _ B E (inv_opened _ Ht)) as [l1 [l [l2 [-> [_ [Hev _]]]]]].
  assert (Hinv : qinv (qrun ident (opened t) l1)) by (apply run_inv, inv_opened, Ht).
  assert (Hi : In (QvDelete i rows) (snd (qstep ident (qrun ident (opened t) l1) l))) by (rewrite Hev; left; reflexivity).
  destruct (step_event ident _ _ _ Hinv Hi) as [k [now [pick [c [t' [pc' [-> [Hc [He [_ _]]]]]]]]]].
  assert (Hd : i = k /\ exists ps n taken, qc_op c = OpPrune ps /\ qc_pc c = QDooming n taken []
     /\ rows = filter (fun r => existsb (Z.eqb (r_id r)) taken) (t_rows (q_tbl (qrun ident (opened t) l1)))).
  { inversion He; subst; split; eauto. eexists _, _, _. eauto. }
  destruct Hd as [<- [ps [n [taken [Ho [Hp ->]]]]]]. destruct c as [o pc]. cbn [qc_op qc_pc] in *. subst o pc.
  destruct (dooming_past t l1 i ps n taken [] Hc) as [ls1 [p [ls2 [ids [-> [Hd Hsub]]]]]].
  exists ls1, n, p, (ls2 ++ QRun i now pick :: l2), ps. split; [rewrite <- app_assoc; reflexivity|]. split.
  - rewrite qrun_app. destruct (op_run ident (QRun i now pick :: l2) _ i _ Hc) as [pc2 Hc2]. eexists. split; [exact Hc2|reflexivity].
  - intros Hk r Hr. apply filter_In in Hr. destruct Hr as [_ Hr]. apply existsb_exists in Hr. destruct Hr as [id [Hid Heq]]. apply Z.eqb_eq in Heq. subst id.
    apply (doomed_prunable n ps _ ids Hk (iv_nodup _ (run_inv ident ls1 _ (inv_opened _ Ht))) Hd). apply Hsub. rewrite app_nil_r. exact Hid.
Qed.

(** * A row found by a unique insert conflicted with it *)

Definition past (t : tbl) (ls : list qlabel) (i : nat) (e : enqueuable) (uq : criteria) (pc : qpc) : Prop :=
  match pc with
  | QFound _ id | QReplacing _ id => exists rp, uc_on_conflict uq = Replace rp /\ sought ident t ls i e id (replaceable rp)
  | QDone (RId (Ok id)) =>
      (exists r, In (QvInsert i r) (qtrace ident (opened t) ls) /\ r_id r = id)
      \/ sought ident t ls i e id (fun _ => True)
  | _ => True
  end.
Lemma sought_more t ls l i e id ok : sought ident t ls i e id ok -> sought ident t (ls ++ [l]) i e id ok.
Proof. intros [ls1 [n [p [ls2 [r [-> H]]]]]]. exists ls1, n, p, (ls2 ++ [l]), r. rewrite <- app_assoc. auto. Qed.
Lemma past_more t ls l i e uq pc : past t ls i e uq pc -> past t (ls ++ [l]) i e uq pc.
Proof.
  destruct pc as [| | | | | | | | | |res]; [..|destruct res as [v| | |]; [destruct v| | |]]; cbn [past]; auto;
    try (intros [rp [H1 H2]]; exists rp; split; [exact H1|apply sought_more, H2]).
  intros [[r0 [H1 H2]]|H]; [left; exists r0; rewrite qtrace_snoc; split; [apply in_or_app; left; exact H1|exact H2]|right; apply sought_more, H].
Qed.

Lemma found_past t ls : forall i e uq pc, eq_criteria e = Some uq -> kept_window e -> kept_request e ->
  nth_error (q_calls (qrun ident (opened t) ls)) i = Some (mk_qcall (OpEnqueue e) pc) -> past t ls i e uq pc.
Proof.
  induction ls as [|l ls IH] using rev_ind; intros i e uq pc Huq Hw Hr Hc; [destruct i; discriminate|].
  rewrite qrun_snoc in Hc. apply call_step_cases in Hc.
  destruct Hc as [Hc|[[o [-> Hc]]|[[now [pick [c0 [t' [ev [-> [Hc0 [Hact [Ho Hev]]]]]]]]]|[er [cx [-> [_ Hc]]]]]]].
  - apply past_more. eapply IH; eauto.
  - injection Hc as <- ->. exact I.
  - destruct c0 as [o pc0]. cbn [qc_op qc_pc] in *. subst o.
    specialize (IH i e uq pc0 Huq Hw Hr Hc0). unfold action in Hact. cbn [qc_op qc_pc] in Hact. rewrite Huq in Hact. unfold unique_action in Hact.
    set (s := qrun ident (opened t) ls) in *.
    destruct pc0 as [|n ids|n id|n|n|n|n id|n id|n id|n a b|res].
    + injection Hact as _ <- _. exact I.
    + injection Hact as _ <- _. exact I.
    + injection Hact as _ <- _. exact I.
    + injection Hact as _ <- _. destruct (advisory_held _ _ _); exact I.
    + destruct (pg_window uq (eq_scheduled_at e)) as [w|] eqn:Ew; [|injection Hact as _ <- _; exact I].
      destruct (negb _); [injection Hact as _ <- _; exact I|].
      destruct (nth_error (filter _ _) _) as [r|] eqn:En in Hact; [|injection Hact as _ <- _; exact I].
      apply nth_mod_in, filter_In in En. destruct En as [Hin Hcf].
      assert (Hcl : clashes e r) by (destruct (clashes_iff e uq Huq Hw Hr) as [w' [Ew' [_ K]]]; rewrite Ew in Ew'; injection Ew' as <-; apply K, Hcf).
      assert (Hsought : forall ok : row -> Prop, ok r -> sought ident t (ls ++ [QRun i now pick]) i e (r_id r) ok)
        by (intros ok Hok; exists ls, now, pick, [], r; auto).
      destruct (uc_on_conflict uq) as [|rp] eqn:Eu.
      * injection Hact as _ <- _. cbn [past]. right. apply Hsought, I.
      * destruct (existsb _ _) eqn:Ex in Hact; injection Hact as _ <- _; cbn [past].
        -- exists rp. split; [exact Eu|]. apply Hsought. apply existsb_exists in Ex. destruct Ex as [st [H1 H2]]. exists st. split; [exact H1|].
           apply spelled_label. apply String.eqb_eq in H2. symmetry. exact H2.
        -- right. apply Hsought, I.
    + destruct (draw n (q_tbl s) e) as [t1 p1] eqn:Ed. injection Hact as _ <- _. unfold draw in Ed.
      destruct (negb _); [injection Ed as _ <-; exact I|]. destruct (_ <? _); injection Ed as _ <-; exact I.
    + cbn [past] in IH. destruct IH as [rp [Eu Hs]]. rewrite Eu in Hact. destruct (find_row id (t_rows (q_tbl s))).
      * injection Hact as _ <- _. destruct (row_locked _ _); exists rp; (split; [exact Eu|apply sought_more, Hs]).
      * unfold commit_replace in Hact. destruct (pg_replace rp e id (q_tbl s)); injection Hact as _ <- _; [|exact I].
        right. apply sought_more. destruct Hs as [ls1 [n1 [p [ls2 [r [H1 [H2 [H3 [H4 _]]]]]]]]]. exists ls1, n1, p, ls2, r. auto.
    + cbn [past] in IH. destruct IH as [rp [Eu Hs]]. rewrite Eu in Hact.
      unfold commit_replace in Hact. destruct (pg_replace rp e id (q_tbl s)); injection Hact as _ <- _; [|exact I].
      right. apply sought_more. destruct Hs as [ls1 [n1 [p [ls2 [r [H1 [H2 [H3 [H4 _]]]]]]]]]. exists ls1, n1, p, ls2, r. auto.
    + unfold commit_insert in Hact. injection Hact as _ <- <-. cbn [past]. left. eexists. split; [|].
      * rewrite qtrace_snoc. apply in_or_app. right. fold s. rewrite Hev. left. reflexivity.
      * reflexivity.
    + injection Hact as _ <- _. exact I.
    + injection Hact as _ <- _. apply past_more, IH.
  - injection Hc as Ho ->. rewrite <- Ho. exact I.
Qed.

Lemma plain_past t ls : forall i e id, eq_criteria e = None ->
  nth_error (q_calls (qrun ident (opened t) ls)) i = Some (mk_qcall (OpEnqueue e) (QDone (RId (Ok id)))) ->
  exists r, In (QvInsert i r) (qtrace ident (opened t) ls) /\ r_id r = id.
Proof.
  induction ls as [|l ls IH] using rev_ind; intros i e id Huq Hc; [destruct i; discriminate|].
  rewrite qrun_snoc in Hc. apply call_step_cases in Hc. rewrite qtrace_snoc.
  assert (Hold : (exists r, In (QvInsert i r) (qtrace ident (opened t) ls) /\ r_id r = id) ->
    exists r, In (QvInsert i r) (qtrace ident (opened t) ls ++ snd (qstep ident (qrun ident (opened t) ls) l)) /\ r_id r = id).
  { intros [r [H1 H2]]. exists r. split; [apply in_or_app; left; exact H1|exact H2]. }
  destruct Hc as [Hc|[[o [-> Hc]]|[[now [pick [c0 [t' [ev [-> [Hc0 [Hact [Ho Hev]]]]]]]]]|[er [cx [-> [_ Hc]]]]]]]; try discriminate Hc.
  - apply Hold. eapply IH; eauto.
  - destruct c0 as [o pc0]. cbn [qc_op qc_pc] in *. subst o. unfold action in Hact. cbn [qc_op qc_pc] in Hact. rewrite Huq in Hact.
    unfold insert_action in Hact. destruct pc0; try discriminate Hact.
    + destruct (draw now (q_tbl (qrun ident (opened t) ls)) e) as [t1 p1] eqn:Ed. injection Hact as _ -> _. unfold draw in Ed.
      destruct (negb _); [discriminate|]. destruct (_ <? _); discriminate.
    + unfold commit_insert in Hact. injection Hact as _ <- <-. eexists. split; [apply in_or_app; right; rewrite Hev; left; reflexivity|reflexivity].
    + injection Hact as _ -> _. apply Hold. eapply IH; eauto.
  - injection Hc as Ho Hf. rewrite <- Ho in Hf. discriminate.
Qed.

(** * What a replacement writes *)

Lemma replace_writes rp e id t t' b a : NoDup (map r_id (t_rows t)) -> pg_replace rp e id t = Some t' -> kept_request e ->
  find_row id (t_rows t) = Some b -> find_row id (t_rows t') = Some a -> row_replaced rp e b a.
Proof.
  intros Hn E Hk Hb Ha. unfold pg_replace in E. destruct (pg_assignments rp e) as [|a0 l] eqn:Ea; [discriminate|]. rewrite <- Ea in E.
  destruct (forallb fst (pg_assignments rp e)); [|discriminate].
  set (f := fun r1 => Some (fold_left (fun r2 (a0 : bool * (row -> row)) => snd a0 r2) (pg_assignments rp e) r1)) in E.
  pose proof (update_rows_spec id f (t_rows t) Hn) as Hu. destruct (update_rows id f (t_rows t)) as [[rows n]|]; [|discriminate].
  injection E as <-. cbn [t_rows] in Ha. destruct Hu as [[-> [-> Hno]]|[-> [pre [r [r' [post [E [-> [E2 [E3 _]]]]]]]]]].
  - exfalso. apply find_row_some in Hb. destruct Hb as [E1 E2]. apply (Hno b E1 E2).
  - unfold f in E3. injection E3 as <-. destruct (assignments_keep rp e r) as [K1 _]. rewrite E in *. subst id.
    rewrite (find_row_mid pre r r post Hn eq_refl) in Hb. rewrite (find_row_mid pre r _ post Hn K1) in Ha. injection Hb as <-. injection Ha as <-.
    destruct Hk as [_ [_ [_ [Hk _]]]]. destruct (pg_time_kept _ Hk) as [Hp _]. unfold row_replaced, pg_assignments. rewrite Hp. destruct r.
    destruct (rp_scheduled_at rp), (rp_data rp), (rp_metadata rp), (rp_priority rp), (rp_max_attempts rp); cbn [app fold_left snd]; repeat (split; [reflexivity|]); reflexivity.
Qed.

Lemma replacement_write t ls i e b a : sound_table t -> In (QvWrite i (OpEnqueue e) b a) (qtrace ident (opened t) ls) ->
  exists uq rp, eq_criteria e = Some uq /\ uc_on_conflict uq = Replace rp
    /\ (kept_request e -> row_replaced rp e b a)
    /\ (kept_window e -> kept_request e -> sought ident t ls i e (r_id b) (replaceable rp)).
Proof.
  intros Ht Hin. apply in_split in Hin. destruct Hin as [A [B E]].
  destruct (trace_split ident ls _ A _ B E (inv_opened _ Ht)) as [l1 [l [l2 [-> [_ [Hev _]]]]]].
  set (s := qrun ident (opened t) l1) in *. assert (Hinv : qinv s) by (apply run_inv, inv_opened, Ht).
  assert (Hi : In (QvWrite i (OpEnqueue e) b a) (snd (qstep ident s l))) by (rewrite Hev; left; reflexivity).
  destruct (step_event ident _ _ _ Hinv Hi) as [k [now [pick [c [t' [pc' [-> [Hc [He [_ _]]]]]]]]]].
  assert (Hd : k = i /\ qc_op c = OpEnqueue e /\ In (r_id b) (row_locks c)).
  { inversion He; subst; auto. }
  destruct Hd as [-> [Ho Hlk]]. destruct c as [o pc]. cbn [qc_op] in Ho. subst o.
  pose proof (iv_stands s Hinv i _ Hc) as Hst. cbn [qc_op qc_pc] in Hst.
  assert (Hp : exists n uq rp, pc = QReplacing n (r_id b) /\ eq_criteria e = Some uq /\ uc_on_conflict uq = Replace rp).
  { inversion Hst; subst; cbn in Hlk; try (destruct Hlk; fail); try discriminate. destruct Hlk as [->|[]]. eauto 6. }
  destruct Hp as [n [uq [rp [-> [Hu Hr]]]]]. exists uq, rp. split; [exact Hu|]. split; [exact Hr|]. split.
  - intro Hk. cbn [qstep] in Hev. rewrite Hc in Hev. unfold action, unique_action in Hev. cbn [qc_op qc_pc] in Hev. rewrite Hu, Hr in Hev.
    unfold commit_replace in Hev. destruct (pg_replace rp e (r_id b) (q_tbl s)) as [t1|] eqn:Er; [|discriminate]. cbn [snd] in Hev.
    destruct (find_row (r_id b) (t_rows (q_tbl s))) as [b0|] eqn:Eb; [|discriminate].
    destruct (find_row (r_id b) (t_rows t1)) as [a0|] eqn:Ea; [|discriminate]. injection Hev as -> ->.
    eapply replace_writes; eauto. exact (iv_nodup s Hinv).
  - intros Hw Hk. pose proof (found_past t l1 i e uq _ Hu Hw Hk Hc) as Hp. cbn [past] in Hp. destruct Hp as [rp' [Er' Hs]].
    rewrite Hr in Er'. injection Er' as <-. destruct Hs as [ls1 [m [p [ls2 [r [-> H]]]]]]. exists ls1, m, p, (ls2 ++ QRun i now pick :: l2), r.
    rewrite <- app_assoc. split; [reflexivity|exact H].
Qed.

(** * A report is one sequential step *)

Lemma report_serial t ls i o b a id : sound_table t -> target o = Some id -> In (QvWrite i o b a) (qtrace ident (opened t) ls) ->
  exists ls1 now p ls2 n res, ls = ls1 ++ QRun i now p :: ls2
    /\ (exists q, In (QRun i n q) ls1)
    /\ pg_step ident n (q_tbl (qrun ident (opened t) ls1)) o = (q_tbl (qrun ident (opened t) (ls1 ++ [QRun i now p])), res)
    /\ In b (t_rows (q_tbl (qrun ident (opened t) ls1)))
    /\ In a (t_rows (q_tbl (qrun ident (opened t) (ls1 ++ [QRun i now p]))))
    /\ finished (qrun ident (opened t) (ls1 ++ [QRun i now p])) i o res.
Proof.
  intros Ht Htg Hin. apply in_split in Hin. destruct Hin as [A [B E]].
  destruct (trace_split ident ls _ A _ B E (inv_opened _ Ht)) as [l1 [l [l2 [-> [_ [Hev _]]]]]].
  set (s := qrun ident (opened t) l1) in *. assert (Hinv : qinv s) by (apply run_inv, inv_opened, Ht).
  assert (Hi : In (QvWrite i o b a) (snd (qstep ident s l))) by (rewrite Hev; left; reflexivity).
  destruct (step_event ident _ _ _ Hinv Hi) as [k [now [pick [c [t' [pc' [-> [Hc [He [_ Hst]]]]]]]]]].
  assert (Hd : k = i /\ qc_op c = o /\ In b (t_rows (q_tbl s)) /\ In a (t_rows t') /\ exists n res, qc_pc c = QHeld n (r_id b)
     /\ pc' = QDone res /\ pg_step ident n (q_tbl s) o = (t', res)).
  { inversion He as [| | |pre b' a' post res Hrows Hlk Hid Hch Hpc Hl Ht2|]; subst. split; [reflexivity|]. split; [reflexivity|].
    split; [rewrite Hrows; apply in_or_app; right; left; reflexivity|]. split; [cbn [t_rows]; apply in_or_app; right; left; reflexivity|].
    destruct (Ht2 id Htg) as [n [Hp Hs]]. exists n, res. auto. }
  destruct Hd as [-> [Ho [Hb [Ha [n [res [Hp [-> Hs]]]]]]]]. exists l1, now, pick, l2, n, res.
  assert (Hrun : qrun ident (opened t) (l1 ++ [QRun i now pick]) = mk_q t' (set_nth i (mk_qcall o (QDone res)) (q_calls s)))
    by (rewrite qrun_snoc; fold s; rewrite Hst, Ho; reflexivity).
  rewrite Hrun. cbn [q_tbl]. split; [reflexivity|]. split; [apply (began_label t l1 i c n Hc); rewrite Hp; reflexivity|].
  split; [exact Hs|]. split; [exact Hb|]. split; [exact Ha|]. unfold finished. cbn [q_calls]. rewrite set_nth_nth, Nat.eqb_refl, Hc. reflexivity.
Qed.
End Past.
