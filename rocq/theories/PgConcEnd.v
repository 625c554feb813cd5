(** Lemmas about what the answers of overlapping calls say. *)
From Verif Require Import Base Chrono Types TypesProofs Query QueryProofs Memory MemSpec MemProofs
  MemInv MemWake PgRow PgQuery Pg PgSpec PgProofs PgQueryProofs PgOps PgHist PgConc PgConcSpec PgConcProofs PgConcHist PgConcUniq
  PgConcPast.

Section End.
Variable ident : option Z -> option string -> list status -> Z.

Lemma action_done i now pick cs t o r : action ident i now pick cs t (mk_qcall o (QDone r)) = (t, QDone r, []).
Proof. unfold action. cbn [qc_op qc_pc]. destruct o; try reflexivity. destruct (eq_criteria e); reflexivity. Qed.

(** * The kind of the answer *)

Lemma step_fits now t o : answer_fits o (snd (pg_step ident now t o)).
Proof.
  destruct o; cbn [pg_step answer_fits]; try (cbn [snd]; eauto; fail);
    match goal with |- context [match ?x with pair _ _ => _ end] => destruct x end; cbn [snd]; eauto.
Qed.
Lemma failed_fits o e : answer_fits o (PgConc.failed o e).
Proof. destruct o; cbn; eauto. Qed.

Lemma draw_fits m t e t' r : draw m t e = (t', QDone r) -> exists x, r = RId x.
Proof. unfold draw. destruct (negb _); [intro H; injection H as _ <-; eauto|]. destruct (_ <? _); intro H; [injection H as _ <-; eauto|discriminate]. Qed.
Lemma commit_replace_fits i rp e id t t' r ev : commit_replace i rp e id t = (t', QDone r, ev) -> exists x, r = RId x.
Proof. unfold commit_replace. destruct (pg_replace rp e id t); intro H; injection H as _ <- _; eauto. Qed.

Lemma action_fits i now pick cs t o pc t' r ev :
  (forall r', pc = QDone r' -> answer_fits o r') -> stands o pc ->
  action ident i now pick cs t (mk_qcall o pc) = (t', QDone r, ev) -> answer_fits o r.
Proof.
  intros Hd Hs H. destruct pc as [|m ids|m id|m|m|m|m id|m id|m id|m tk rs|r0].
  11: { rewrite action_done in H. injection H as _ <- _. apply Hd. reflexivity. }
  all: unfold action in H; cbn [qc_op qc_pc] in H.
  - pose proof (step_fits now t o) as Hf. destruct o; cbn [target] in H;
      try (cbn [row_action] in H; destruct (find_row _ _); [injection H as _ H _; destruct (row_locked _ _); discriminate|]);
      try (match type of Hf with answer_fits _ ?x => assert (E : QDone x = QDone r) by congruence end; injection E as <-; exact Hf).
    + destruct (eq_criteria e) as [uq|]; [discriminate|]. cbn [insert_action] in H. destruct (draw now t e) as [t1 p1] eqn:Ed.
      injection H as -> -> _. exact (draw_fits _ _ _ _ _ Ed).
    + cbn [load_action] in H. destruct (negb _); [injection H as _ <- _; cbn; eauto|discriminate].
    + cbn [prune_action] in H. destruct (pg_doomed now ps (t_rows t)) as [[ids|]|]; try (injection H as _ <- _; cbn; eauto; fail).
      destruct (pg_spec_ok _); [discriminate|]. injection H as _ <- _. cbn. eauto.
  - inversion Hs; subst; cbn [target] in *; try discriminate. cbn [load_action] in H. destruct ids; [injection H as _ <- _; cbn; eauto|].
    injection H as _ H _. destruct (row_locked _ _); [discriminate|]. destruct (find_row _ _); [|discriminate]. destruct (pg_ready _ _ _); discriminate.
  - assert (Hrow : forall k, target o = Some k -> row_action ident i now cs t o k (QHeld m id) = (t', QDone r, ev) -> answer_fits o r).
    { intros k _ E. cbn [row_action] in E. pose proof (step_fits m t o) as Hf. destruct (pg_step ident m t o) as [t1 r1]. injection E as _ <- _. exact Hf. }
    inversion Hs as [| | |ex ? ?|o' ? ? Ht| | | | | | |]; subst.
    + cbn [load_action] in H. destruct (find_row id (t_rows t)); [|injection H as _ <- _; cbn; eauto].
      destruct (update_rows _ _ _) as [[l k]|]; [|injection H as _ <- _; cbn; eauto]. destruct (pg_take m r0); injection H as _ <- _; cbn; eauto.
    + apply (Hrow id Ht). destruct o; cbn [target] in *; try discriminate; injection Ht as <-; exact H.
  - inversion Hs as [| | | | | | |e uq ? Hu| | | |]; subst; try discriminate. rewrite Hu in H. cbn [unique_action] in H. injection H as _ H _. destruct (advisory_held _ _ _); discriminate.
  - inversion Hs as [| | | | | | | |e uq ? Hu| | |]; subst; try discriminate. rewrite Hu in H. cbn [unique_action] in H.
    destruct (pg_window uq _); [|injection H as _ <- _; cbn; eauto]. destruct (negb _); [injection H as _ <- _; cbn; eauto|].
    destruct (nth_error _ _); [|discriminate]. injection H as _ H _. destruct (uc_on_conflict uq); [injection H as <-; cbn; eauto|].
    destruct (existsb _ _); [discriminate|injection H as <-; cbn; eauto].
  - inversion Hs as [| | | | | | | | |e uq ? Hu| |]; subst; try discriminate. rewrite Hu in H. cbn [unique_action] in H.
    destruct (draw m t e) as [t1 p1] eqn:Ed. injection H as -> -> _. exact (draw_fits _ _ _ _ _ Ed).
  - inversion Hs as [| | | | | | | | | |e uq rp ? ? Hu Hr|]; subst; try discriminate. rewrite Hu in H. cbn [unique_action] in H. rewrite Hr in H.
    destruct (find_row id (t_rows t)); [injection H as _ H _; destruct (row_locked _ _); discriminate|]. exact (commit_replace_fits _ _ _ _ _ _ _ _ H).
  - inversion Hs as [| | | | | | | | | | |e uq rp ? ? Hu Hr]; subst; try discriminate. rewrite Hu in H. cbn [unique_action] in H. rewrite Hr in H.
    exact (commit_replace_fits _ _ _ _ _ _ _ _ H).
  - inversion Hs as [| | | | | |e ? ?| | | | |]; subst; try discriminate. destruct (eq_criteria e); injection H as _ <- _; cbn; eauto.
  - inversion Hs as [| | | | |ps ? ? ?| | | | | |]; subst; try discriminate. cbn [prune_action] in H. destruct rs; [injection H as _ <- _; cbn; eauto|].
    injection H as _ H _. destruct (find_row _ _); [|discriminate]. destruct (row_locked _ _); discriminate.
Qed.

Lemma answers_fit t ls : sound_table t -> forall i o r, finished (qrun ident (opened t) ls) i o r -> answer_fits o r.
Proof.
  intro Ht. induction ls as [|l ls IH] using rev_ind; intros i o r Hf; [destruct i; discriminate|].
  unfold finished in Hf. rewrite qrun_snoc in Hf. apply call_step_cases in Hf.
  destruct Hf as [Hc|[[o' [-> Hc]]|[[now [pick [[o0 pc0] [t' [ev [-> [Hc0 [Hact [Ho _]]]]]]]]]|[er [cx [-> [_ Hc]]]]]]]; try discriminate Hc.
  - exact (IH i o r Hc).
  - cbn [qc_op qc_pc] in *. subst o0. eapply action_fits; [|exact (iv_stands _ (run_inv ident ls _ (inv_opened _ Ht)) i _ Hc0)|exact Hact].
    cbn [qc_pc]. intros r' ->. exact (IH i o r' Hc0).
  - injection Hc as -> ->. apply failed_fits.
Qed.

(** * Success *)

Lemma achieved_more i o r tr tr' : achieved i o r tr -> achieved i o r (tr ++ tr').
Proof.
  intro H.
  assert (Hw : forall P : row -> row -> Prop, (exists b a, In (QvWrite i o b a) tr /\ P b a) -> exists b a, In (QvWrite i o b a) (tr ++ tr') /\ P b a)
    by (intros P [b [a [H1 H2]]]; exists b, a; split; [apply in_or_app; left; exact H1|exact H2]).
  destruct o; cbn [achieved] in *; try exact I; try (apply (Hw (fun b _ => r_id b = _)); exact H).
  - destruct H as [H|[b [a [j [H1 H2]]]]]; [left; exact H|right]. exists b, a, j. split; [apply in_or_app; left; exact H1|exact H2].
  - destruct H as [rows H]. exists rows. apply in_or_app. left. exact H.
Qed.

Lemma action_achieves i now pick cs t o pc t' r ev : NoDup (map r_id (t_rows t)) ->
  stands o pc -> action ident i now pick cs t (mk_qcall o pc) = (t', QDone r, ev) ->
  pc = QDone r \/ PgSpec.failed r \/ achieved i o r ev.
Proof.
  intros Hn Hs H.
  assert (Hrow : forall id, target o = Some id -> row_action ident i now cs t o id pc = (t', QDone r, ev) ->
    pc = QDone r \/ PgSpec.failed r \/ exists b a, In (QvWrite i o b a) ev /\ r_id b = id).
  { intros id Ho E. destruct pc; cbn [row_action] in E; try discriminate.
    - destruct (find_row id (t_rows t)) eqn:Ef; [injection E as _ E _; destruct (row_locked _ _); discriminate|]. injection E as _ <- _.
      right. left. destruct (pg_step ident now t o) as [t1 r1] eqn:Es. cbn [snd]. apply pg_step_cases in Es; [|exact Hn].
      destruct Es as [[_ Hq]|[[e [key [-> _]]]|[[pre [b [a [post [E1 [_ [_ [H1 _]]]]]]]]|[ps [keep [-> _]]]]]]; try discriminate Ho.
      + assert (Hres : exists e, r1 = RUnit (Err e)) by (destruct o; try discriminate Ho; exact Hq). destruct Hres as [e ->]. exact I.
      + exfalso. apply find_row_none in Ef. apply Ef. rewrite E1. apply in_map_iff. exists b. split; [|apply in_or_app; right; left; reflexivity].
        destruct o; try discriminate Ho; injection Ho as <-; cbn in H1; tauto.
    - assert (id0 = id) by (inversion Hs; subst; [discriminate|congruence]). subst id0.
      destruct (pg_step ident now0 t o) as [t1 r1] eqn:Es. injection E as _ <- <-. right. apply pg_step_cases in Es; [|exact Hn].
      destruct Es as [[_ Hq]|[[e [key [-> _]]]|[[pre [b [a [post [E1 [-> [E2 [H1 _]]]]]]]]|[ps [keep [-> _]]]]]]; try discriminate Ho.
      + left. assert (Hres : exists e, r1 = RUnit (Err e)) by (destruct o; try discriminate Ho; exact Hq). destruct Hres as [e ->]. exact I.
      + right. assert (Hb : r_id b = id /\ r1 = RUnit (Ok tt)) by (destruct o; try discriminate Ho; injection Ho as <-; cbn in H1; tauto).
        destruct Hb as [Hb ->]. cbn [t_rows]. rewrite E1 in *. subst id. rewrite (find_row_mid pre b b post Hn eq_refl), (find_row_mid pre b a post Hn E2).
        exists b, a. split; [left; reflexivity|reflexivity].
    - left. injection E as _ -> _. reflexivity. }
  unfold action in H. cbn [qc_op qc_pc] in H.
  destruct o; cbn [achieved target] in *; try (right; right; exact I); try (exact (Hrow _ eq_refl H)).
  - destruct pc; cbn [load_action] in H; try discriminate.
    + destruct (negb _); [injection H as _ <- _; right; left; exact I|discriminate].
    + destruct ids; [injection H as _ <- _; right; right; left; reflexivity|]. injection H as _ H _.
      destruct (row_locked _ _); [discriminate|]. destruct (find_row _ _); [|discriminate]. destruct (pg_ready _ _ _); discriminate.
    + destruct (find_row id (t_rows t)) as [b|]; [|injection H as _ <- _; right; right; left; reflexivity].
      destruct (update_rows _ _ _) as [[l k]|]; [|injection H as _ <- _; right; left; exact I]. destruct (pg_take now0 b) as [a|]; injection H as _ <- <-; [|right; left; exact I].
      right. destruct (job_of_row a) as [j|er|] eqn:Ej; [|left; exact I|left; exact I]. right. right. exists b, a, j.
      split; [left; reflexivity|]. split; [apply represents_iff; exact Ej|reflexivity].
    + left. injection H as _ -> _. reflexivity.
  - destruct pc; cbn [prune_action] in H; try discriminate.
    + destruct (pg_doomed now ps (t_rows t)) as [[ids|]|]; try (injection H as _ <- _; right; left; exact I).
      destruct (pg_spec_ok _); [discriminate|injection H as _ <- _; right; left; exact I].
    + destruct rest; [injection H as _ <- <-; right; right; eexists; left; reflexivity|]. injection H as _ H _.
      destruct (find_row _ _); [|discriminate]. destruct (row_locked _ _); discriminate.
    + left. injection H as _ -> _. reflexivity.
Qed.

Lemma success t ls : sound_table t -> forall i o r, finished (qrun ident (opened t) ls) i o r -> ~ PgSpec.failed r ->
  achieved i o r (qtrace ident (opened t) ls).
Proof.
  intro Ht. induction ls as [|l ls IH] using rev_ind; intros i o r Hf Hok; [destruct i; discriminate|].
  unfold finished in Hf. rewrite qrun_snoc in Hf. apply call_step_cases in Hf. rewrite qtrace_snoc.
  destruct Hf as [Hc|[[o' [-> Hc]]|[[now [pick [[o0 pc0] [t' [ev [-> [Hc0 [Hact [Ho Hev]]]]]]]]]|[er [cx [-> [_ Hc]]]]]]]; try discriminate Hc.
  - apply achieved_more. exact (IH i o r Hc Hok).
  - cbn [qc_op qc_pc] in *. subst o0. pose proof (run_inv ident ls _ (inv_opened _ Ht)) as Hinv.
    destruct (action_achieves _ _ _ _ _ _ _ _ _ _ (iv_nodup _ Hinv) (iv_stands _ Hinv i _ Hc0) Hact) as [E|[Hx|Hx]].
    + cbn [qc_pc] in E. subst pc0. apply achieved_more. exact (IH i o r Hc0 Hok).
    + contradiction.
    + rewrite Hev. destruct (qtrace ident (opened t) ls) as [|x tr]; [exact Hx|].
      clear -Hx. set (tr0 := x :: tr). assert (Hw : forall e, In e ev -> In e (tr0 ++ ev)) by (intros e He; apply in_or_app; right; exact He).
      clearbody tr0. destruct o; cbn [achieved] in *; try exact I;
        try (destruct Hx as [b [a [H1 H2]]]; exists b, a; split; [apply Hw, H1|exact H2]).
      * destruct Hx as [Hx|[b [a [j [H1 H2]]]]]; [left; exact Hx|right]. exists b, a, j. split; [apply Hw, H1|exact H2].
      * destruct Hx as [rows Hx]. exists rows. apply Hw, Hx.
  - exfalso. apply Hok. injection Hc as -> ->. destruct (qc_op cx); exact I.
Qed.

(** * Failure *)

Lemma effect_doer i cs t c t' pc' ev : effect ident i cs t c t' pc' [ev] -> doer ev = i
  /\ (forall r, qc_pc c <> QDone r)
  /\ exists r, pc' = QDone r /\ (PgSpec.failed r -> exists ex b a, ev = QvWrite i (OpLoad ex) b a /\ qc_op c = OpLoad ex /\ forall j, ~ represents a j).
Proof.
  intro H. inversion H as [| |now id key e Ho Hp|pre b a post res Hrows Hlk Hid Hch Hpc Hl Ht2|ps now taken Ho Hp]; subst.
  - split; [reflexivity|]. split; [intros r E; congruence|]. eexists. split; [reflexivity|intros []].
  - split; [reflexivity|]. split; [intros r E; unfold row_locks in Hlk; rewrite E in Hlk; destruct Hlk|]. eexists. split; [reflexivity|]. intro Hf.
    destruct (qc_op c) eqn:Eo; cbn in Hch; try contradiction;
      try (destruct Hch as [_ [-> _]]; destruct Hf); try (destruct Hch as [_ [_ [_ ->]]]; destruct Hf).
    destruct Hch as [_ [_ [_ [[j [_ ->]]|[Hno _]]]]]; [destruct Hf|]. exists executor, b, a. split; [reflexivity|]. split; [reflexivity|].
    intros j Hj. apply Hno. exists j. exact Hj.
  - split; [reflexivity|]. split; [intros r E; congruence|]. eexists. split; [reflexivity|intros []].
Qed.

Lemma arrive_prefix t ls l i : answers_arrive ident t (ls ++ [l]) i -> answers_arrive ident t ls i.
Proof. intros H A e B ->. apply (H A e (B ++ [l])). rewrite <- app_assoc. reflexivity. Qed.

Lemma deeds t ls : sound_table t -> forall ev, In ev (qtrace ident (opened t) ls) ->
  exists c r, nth_error (q_calls (qrun ident (opened t) ls)) (doer ev) = Some c /\ qc_pc c = QDone r
    /\ (answers_arrive ident t ls (doer ev) -> PgSpec.failed r ->
        exists ex b a, ev = QvWrite (doer ev) (OpLoad ex) b a /\ qc_op c = OpLoad ex /\ forall j, ~ represents a j).
Proof.
  intro Ht. induction ls as [|l ls IH] using rev_ind; intros ev Hin; [destruct Hin|].
  rewrite qtrace_snoc in Hin. rewrite qrun_snoc. pose proof (run_inv ident ls _ (inv_opened _ Ht)) as Hinv.
  set (s := qrun ident (opened t) ls) in *. apply in_app_or in Hin. destruct Hin as [Hin|Hin].
  - destruct (IH ev Hin) as [c [r [Hc [Hp Hf]]]]. destruct l as [o|k n p|k e].
    + exists c, r. cbn [qstep fst q_calls]. rewrite nth_error_app1; [|apply nth_error_Some; congruence].
      split; [exact Hc|]. split; [exact Hp|]. intros Ha. apply Hf. exact (arrive_prefix _ _ _ _ Ha).
    + exists c, r. split; [|split; [exact Hp|intros Ha; apply Hf; exact (arrive_prefix _ _ _ _ Ha)]].
      destruct (nth_error (q_calls s) k) as [d|] eqn:Hk; [|cbn [qstep]; rewrite Hk; exact Hc].
      destruct (qstep_run ident s k n p d Hk) as [t' [pc' [evs [Hact ->]]]]. cbn [fst q_calls]. rewrite set_nth_nth.
      destruct (Nat.eqb_spec k (doer ev)) as [E|_]; [|exact Hc]. rewrite Hk. rewrite E in Hk. rewrite Hc in Hk. injection Hk as <-.
      destruct c as [o pc]. cbn [qc_pc qc_op] in *. subst pc. rewrite action_done in Hact. injection Hact as _ <- _. reflexivity.
    + cbn [qstep]. destruct (nth_error (q_calls s) k) as [d|] eqn:Hk.
      * cbn [fst q_calls]. rewrite set_nth_nth. destruct (Nat.eqb_spec k (doer ev)) as [E|_].
        -- subst k. rewrite Hc. eexists _, _. split; [reflexivity|]. split; [reflexivity|]. intros Ha Hx. exfalso.
           apply (Ha ls e [] eq_refl (qc_op c) r). unfold finished. fold s. rewrite Hc. destruct c as [o pc]. cbn in Hp |- *. rewrite Hp. reflexivity.
        -- exists c, r. split; [exact Hc|]. split; [exact Hp|]. intros Ha. apply Hf. exact (arrive_prefix _ _ _ _ Ha).
      * exists c, r. split; [exact Hc|]. split; [exact Hp|]. intros Ha. apply Hf. exact (arrive_prefix _ _ _ _ Ha).
  - destruct (step_event ident _ _ _ Hinv Hin) as [k [now [pick [c [t' [pc' [-> [Hc [He [_ E]]]]]]]]]].
    destruct (effect_doer _ _ _ _ _ _ _ He) as [Hd [_ [r [-> Hf]]]]. rewrite E. cbn [q_calls]. rewrite Hd, set_nth_nth, Nat.eqb_refl, Hc.
    eexists _, r. split; [reflexivity|]. split; [reflexivity|]. intros _. exact Hf.
Qed.

(** A call does at most one thing. *)
Lemma one_deed t ls i : sound_table t -> (length (filter (fun ev => Nat.eqb (doer ev) i) (qtrace ident (opened t) ls)) <= 1)%nat.
Proof.
  intro Ht. induction ls as [|l ls IH] using rev_ind; [cbn; lia|]. rewrite qtrace_snoc, filter_app, app_length.
  pose proof (run_inv ident ls _ (inv_opened _ Ht)) as Hinv. set (s := qrun ident (opened t) ls) in *.
  destruct (snd (qstep ident s l)) as [|ev evs] eqn:E; [cbn; lia|].
  assert (Hin : In ev (snd (qstep ident s l))) by (rewrite E; left; reflexivity).
  destruct (step_event ident _ _ _ Hinv Hin) as [k [now [pick [c [t' [pc' [-> [Hc [He [E1 _]]]]]]]]]]. rewrite E1 in E. injection E as <-.
  destruct (effect_doer _ _ _ _ _ _ _ He) as [Hd [Hnd _]]. cbn [filter]. rewrite Hd. destruct (Nat.eqb_spec k i) as [->|_]; [|cbn; lia].
  destruct (filter (fun ev0 => Nat.eqb (doer ev0) i) (qtrace ident (opened t) ls)) as [|x xs] eqn:Ex; [cbn; lia|].
  exfalso. assert (Hx : In x (filter (fun ev0 => Nat.eqb (doer ev0) i) (qtrace ident (opened t) ls))) by (rewrite Ex; left; reflexivity).
  apply filter_In in Hx. destruct Hx as [Hx Hi]. apply Nat.eqb_eq in Hi. destruct (deeds t ls Ht x Hx) as [c' [r [Hc' [Hp _]]]].
  rewrite Hi in Hc'. fold s in Hc'. rewrite Hc in Hc'. injection Hc' as <-. exact (Hnd r Hp).
Qed.
End End.
