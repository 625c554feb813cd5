(** Lemmas about calls that run without being disturbed. *)
From Coq Require Import Permutation Sorted.
From Verif Require Import Base Chrono Types TypesProofs Query QueryProofs Memory MemSpec MemProofs
  MemInv MemWake PgRow PgQuery Pg PgSpec PgProofs PgQueryProofs PgOps PgHist PgConc PgConcSpec PgConcProofs PgConcHist PgConcUniq.

Lemma set_nth_twice {A} i (x y : A) : forall l, set_nth i x (set_nth i y l) = set_nth i x l.
Proof. induction i as [|i IH]; intros [|z l]; cbn; try reflexivity. f_equal. apply IH. Qed.
Lemma set_nth_same {A} i (x : A) : forall l, nth_error l i = Some x -> set_nth i x l = l.
Proof. induction i as [|i IH]; intros [|z l] H; cbn in *; try discriminate; [congruence|]. f_equal. apply IH, H. Qed.
Lemma nth_first {A} (f : A -> bool) l : nth_error (filter f l) (Nat.modulo 0 (length (filter f l))) = find f l.
Proof.
  assert (E : Nat.modulo 0 (length (filter f l)) = O) by (destruct (length (filter f l)) as [|n]; [reflexivity|apply Nat.mod_0_l; discriminate]).
  rewrite E. induction l as [|x l IH]; cbn; [reflexivity|]. cbn in E. destruct (f x); [reflexivity|apply IH; destruct (length (filter f l)); [reflexivity|apply Nat.mod_0_l; discriminate]].
Qed.

Lemma nodup_app_r {A} (a b : list A) : NoDup (a ++ b) -> NoDup b.
Proof. induction a as [|x a IH]; intro H; [exact H|]. apply IH. inversion H; assumption. Qed.

Section Live.
Variable ident : option Z -> option string -> list status -> Z.

Section Solo.
Variables (i : nat) (o : mop) (cs : list qcall) (now : time) (c0 : qcall).
Hypothesis Hi : nth_error cs i = Some c0.

(** The system with call [i] standing at [pc]. *)
Definition at_pc (t : tbl) (pc : qpc) : qstate := mk_q t (set_nth i (mk_qcall o pc) cs).
Definition reaches (t : tbl) (pc : qpc) (t' : tbl) (pc' : qpc) : Prop :=
  exists n, qrun ident (at_pc t pc) (repeat (QRun i now 0) n) = at_pc t' pc'.

Lemma at_pc_nth t pc : nth_error (q_calls (at_pc t pc)) i = Some (mk_qcall o pc).
Proof. unfold at_pc. cbn [q_calls]. rewrite set_nth_nth, Nat.eqb_refl, Hi. reflexivity. Qed.
Lemma at_pc_step t pc : let '(t', pc', ev) := action ident i now 0 (set_nth i (mk_qcall o pc) cs) t (mk_qcall o pc) in
  qstep ident (at_pc t pc) (QRun i now 0) = (at_pc t' pc', ev).
Proof.
  destruct (action ident i now 0 (set_nth i (mk_qcall o pc) cs) t (mk_qcall o pc)) as [[t' pc'] ev] eqn:E.
  cbn [qstep]. rewrite at_pc_nth. unfold at_pc in *. cbn [q_calls q_tbl qc_op] in *. rewrite E, set_nth_twice. reflexivity.
Qed.
Lemma reaches_refl t pc : reaches t pc t pc.
Proof. exists O. reflexivity. Qed.
Lemma reaches_step t pc t1 pc1 ev t' pc' :
  action ident i now 0 (set_nth i (mk_qcall o pc) cs) t (mk_qcall o pc) = (t1, pc1, ev) -> reaches t1 pc1 t' pc' -> reaches t pc t' pc'.
Proof.
  intros H [n Hn]. exists (S n). cbn [repeat qrun]. pose proof (at_pc_step t pc) as Hs. rewrite H in Hs. rewrite Hs. exact Hn.
Qed.

Definition rows_free : Prop := forall k c, k <> i -> nth_error cs k = Some c -> row_locks c = [].
Definition advisories_free : Prop := forall k c, k <> i -> nth_error cs k = Some c -> advisory ident c = None.

Lemma not_locked pc id : rows_free -> ~ In id (row_locks (mk_qcall o pc)) -> row_locked (set_nth i (mk_qcall o pc) cs) id = false.
Proof.
  intros Hr Hn. apply not_true_is_false. intro H. apply row_locked_true in H. destruct H as [k [c [Hk Hin]]].
  apply nth_set in Hk. destruct Hk as [[-> [-> _]]|[Hne Hk]]; [contradiction|]. rewrite (Hr k c Hne Hk) in Hin. destruct Hin.
Qed.
Lemma not_held key n : advisories_free -> advisory_held ident (set_nth i (mk_qcall o (QBegun n)) cs) key = false.
Proof.
  intro Ha. apply not_true_is_false. intro H. unfold advisory_held in H. apply existsb_exists in H. destruct H as [c [Hin Hc]].
  apply In_nth_error in Hin. destruct Hin as [k Hk]. apply nth_set in Hk. destruct Hk as [[-> [-> _]]|[Hne Hk]].
  - unfold advisory in Hc. cbn [qc_op qc_pc] in Hc. destruct o; discriminate.
  - rewrite (Ha k c Hne Hk) in Hc. discriminate.
Qed.

(** * A call that runs alone does what it does in the sequential model *)

Lemma doomed_present ps rows ids : pg_doomed now ps rows = Some (Some ids) -> NoDup (map r_id rows) ->
  NoDup ids /\ forall id, In id ids -> In id (map r_id rows).
Proof.
  intros H Hn. unfold pg_doomed in H.
  assert (Hf : forall f, NoDup (map r_id (filter f (filter (pg_in_scope ps) rows)))
     /\ forall id, In id (map r_id (filter f (filter (pg_in_scope ps) rows))) -> In id (map r_id rows)).
  { intro f. split; [apply nodup_filter_map, nodup_filter_map, Hn|]. intros id Hid. apply in_map_iff in Hid. destruct Hid as [r [<- Hr]].
    apply filter_In in Hr. destruct Hr as [Hr _]. apply filter_In in Hr. apply in_map. tauto. }
  destruct (ps_by ps).
  - destruct (in_past (ps_status ps)).
    + destruct (dt_sub now d) as [c|]; [|discriminate]. destruct (time_ok c); [|discriminate]. injection H as <-. apply Hf.
    + destruct (dt_add now d) as [c|]; [|discriminate]. destruct (time_ok c); [|discriminate]. injection H as <-. apply Hf.
  - injection H as <-. set (le_at := if in_past (ps_status ps) then _ else _).
    assert (Hp : Permutation (filter (pg_in_scope ps) rows) (stable_sort le_at (filter (pg_in_scope ps) rows))).
    { unfold le_at. destruct (in_past (ps_status ps)).
      - apply stable_sort_sorted; intros; rewrite ?Z.leb_le in *; lia.
      - apply stable_sort_sorted; intros; rewrite ?Z.leb_le in *; lia. }
    set (l := stable_sort le_at (filter (pg_in_scope ps) rows)) in *.
    assert (Hl : NoDup (map r_id l)).
    { apply Permutation_NoDup with (l := map r_id (filter (pg_in_scope ps) rows)); [apply Permutation_map, Hp|apply nodup_filter_map, Hn]. }
    split.
    + rewrite <- (firstn_skipn (Z.to_nat n) l), map_app in Hl. exact (nodup_app_r _ _ Hl).
    + intros id Hid. apply in_map_iff in Hid. destruct Hid as [r [<- Hr]]. apply in_map.
      assert (Hin : In r l) by (rewrite <- (firstn_skipn (Z.to_nat n) l); apply in_or_app; right; exact Hr).
      apply (Permutation_in _ (Permutation_sym Hp)) in Hin. apply filter_In in Hin. tauto.
Qed.

Lemma action_load cs' t pc ex : o = OpLoad ex -> action ident i now 0 cs' t (mk_qcall o pc) = load_action i now cs' t ex pc.
Proof. intros ->. reflexivity. Qed.
Lemma action_prune cs' t pc ps : o = OpPrune ps -> action ident i now 0 cs' t (mk_qcall o pc) = prune_action i now cs' t ps pc.
Proof. intros ->. reflexivity. Qed.
Lemma action_insert cs' t pc e : o = OpEnqueue e -> eq_criteria e = None ->
  action ident i now 0 cs' t (mk_qcall o pc) = insert_action i now t e pc.
Proof. intros -> H. unfold action. cbn [qc_op qc_pc]. rewrite H. reflexivity. Qed.
Lemma action_unique cs' t pc e uq : o = OpEnqueue e -> eq_criteria e = Some uq ->
  action ident i now 0 cs' t (mk_qcall o pc) = unique_action ident i now 0 cs' t e uq pc.
Proof. intros -> H. unfold action. cbn [qc_op qc_pc]. rewrite H. reflexivity. Qed.
Lemma action_row cs' t pc id : target o = Some id -> action ident i now 0 cs' t (mk_qcall o pc) = row_action ident i now cs' t o id pc.
Proof. intro H. unfold action. cbn [qc_op qc_pc]. destruct o; cbn [target] in *; try discriminate; injection H as <-; reflexivity. Qed.

Lemma dooming_reaches ps t began : o = OpPrune ps -> rows_free -> forall rest taken,
  NoDup (rev taken ++ rest) -> (forall id, In id rest -> In id (map r_id (t_rows t))) ->
  reaches t (QDooming began taken rest) t (QDooming began (rev rest ++ taken) []).
Proof.
  intros Ho Hr. induction rest as [|id rest IH]; intros taken Hn Hp; [apply reaches_refl|].
  destruct (proj1 (find_row_present id (t_rows t)) (Hp id (or_introl eq_refl))) as [r Hf].
  eapply reaches_step.
  - rewrite (action_prune _ _ _ ps Ho). cbn [prune_action]. rewrite Hf, not_locked; [reflexivity|exact Hr|].
    cbn [row_locks qc_pc]. intro Hin. apply in_rev in Hin. apply NoDup_remove_2 in Hn. apply Hn. apply in_or_app. left. exact Hin.
  - cbn [rev]. rewrite <- app_assoc. cbn [app]. apply IH.
    + cbn [rev]. rewrite <- app_assoc. exact Hn.
    + intros x Hx. apply Hp. right. exact Hx.
Qed.

Lemma existsb_rev (id : Z) l : existsb (Z.eqb id) (rev l) = existsb (Z.eqb id) l.
Proof.
  apply eq_true_iff_eq. rewrite !existsb_exists. split; intros [x [H1 H2]]; exists x; (split; [|exact H2]).
  - apply in_rev. exact H1.
  - apply in_rev. rewrite rev_involutive. exact H1.
Qed.

Lemma solo t : NoDup (map r_id (t_rows t)) -> rows_free -> advisories_free ->
  reaches t QStart (fst (pg_step ident now t o)) (QDone (snd (pg_step ident now t o))).
Proof.
  intros Hn Hr Ha.
  assert (Hrow : forall id, target o = Some id ->
    reaches t QStart (fst (pg_step ident now t o)) (QDone (snd (pg_step ident now t o)))).
  { intros id Ht. destruct (find_row id (t_rows t)) as [r|] eqn:Ef.
    - eapply reaches_step; [rewrite (action_row _ _ _ id Ht); cbn [row_action]; rewrite Ef, not_locked; [reflexivity|exact Hr|intros []]|].
      eapply reaches_step; [rewrite (action_row _ _ _ id Ht); cbn [row_action]; rewrite (surjective_pairing (pg_step ident now t o)); reflexivity|].
      apply reaches_refl.
    - eapply reaches_step; [rewrite (action_row _ _ _ id Ht); cbn [row_action]; rewrite Ef; reflexivity|].
      pose proof (target_absent ident now t o id Ht Ef Hn) as E. rewrite E. apply reaches_refl. }
  assert (Hplain : fst (pg_step ident now t o) = t ->
    (action ident i now 0 (set_nth i (mk_qcall o QStart) cs) t (mk_qcall o QStart) = (t, QDone (snd (pg_step ident now t o)), [])) ->
    reaches t QStart (fst (pg_step ident now t o)) (QDone (snd (pg_step ident now t o)))).
  { intros H1 H2. eapply reaches_step; [exact H2|]. rewrite H1. apply reaches_refl. }
  assert (Hload : forall ex, o = OpLoad ex -> reaches t QStart (fst (pg_step ident now t o)) (QDone (snd (pg_step ident now t o)))).
  { intros ex Eo. clear Hrow Hplain. rewrite Eo. cbn [pg_step]. destruct (pg_load now ex t) as [t' r] eqn:El. cbn [fst snd]. unfold pg_load in El.
    destruct (storable ex) eqn:Est; cbn [negb] in El.
    2: { injection El as <- <-. eapply reaches_step; [rewrite (action_load _ _ _ ex Eo); cbn [load_action]; rewrite Est; reflexivity|]. apply reaches_refl. }
    pose proof (stable_sort_head pg_leb pg_leb_total pg_leb_trans (filter (pg_ready now ex) (t_rows t))) as Hh.
    eapply reaches_step; [rewrite (action_load _ _ _ ex Eo); cbn [load_action]; rewrite Est; reflexivity|].
    destruct (stable_sort pg_leb (filter (pg_ready now ex) (t_rows t))) as [|r0 l]; cbn [map].
    { injection El as <- <-. eapply reaches_step; [rewrite (action_load _ _ _ ex Eo); reflexivity|]. apply reaches_refl. }
    assert (Hin : In r0 (filter (pg_ready now ex) (t_rows t))).
    { destruct Hh as [pre [post [-> _]]]. apply in_or_app. right. left. reflexivity. }
    apply filter_In in Hin. destruct Hin as [Hin Hrd]. pose proof (find_row_in _ _ Hn Hin) as Hf.
    eapply reaches_step.
    { rewrite (action_load _ _ _ ex Eo). cbn [load_action]. rewrite not_locked; [|exact Hr|intros []]. rewrite Hf, Hrd. reflexivity. }
    destruct (update_rows (r_id r0) (pg_take now) (t_rows t)) as [[l1 n1]|] eqn:Eu.
    - destruct (pg_take now r0) as [r1|] eqn:Et; injection El as <- <-;
        (eapply reaches_step; [rewrite (action_load _ _ _ ex Eo); cbn [load_action]; rewrite Hf, Eu, Et; reflexivity|apply reaches_refl]).
    - injection El as <- <-. eapply reaches_step; [rewrite (action_load _ _ _ ex Eo); cbn [load_action]; rewrite Hf, Eu; reflexivity|apply reaches_refl]. }
  assert (Hprune : forall ps, o = OpPrune ps -> reaches t QStart (fst (pg_step ident now t o)) (QDone (snd (pg_step ident now t o)))).
  { intros ps Eo. rewrite Eo. cbn [pg_step]. destruct (pg_prune now ps t) as [t' r] eqn:Ep. cbn [fst snd]. unfold pg_prune in Ep.
    destruct (pg_doomed now ps (t_rows t)) as [[ids|]|] eqn:Ed.
    - destruct (pg_spec_ok (ps_executors ps)) eqn:Es.
      + injection Ep as <- <-. destruct (doomed_present ps _ ids Ed Hn) as [Hni Hpi].
        eapply reaches_step; [rewrite (action_prune _ _ _ ps Eo); cbn [prune_action]; rewrite Ed, Es; reflexivity|].
        destruct (dooming_reaches ps t now Eo Hr ids [] Hni Hpi) as [n Hd].
        assert (Hlast : reaches t (QDooming now (rev ids ++ []) [])
           (mk_tbl (filter (fun r => negb (existsb (Z.eqb (r_id r)) ids)) (t_rows t)) (t_next t)) (QDone (RUnit (Ok tt)))).
        { eapply reaches_step; [rewrite (action_prune _ _ _ ps Eo); reflexivity|]. rewrite app_nil_r.
          rewrite (filter_ext _ (fun r => negb (existsb (Z.eqb (r_id r)) ids))); [apply reaches_refl|]. intro r. rewrite existsb_rev. reflexivity. }
        destruct Hlast as [m Hm]. exists (n + m)%nat. rewrite repeat_app, qrun_app, Hd. exact Hm.
      + injection Ep as <- <-. eapply reaches_step; [rewrite (action_prune _ _ _ ps Eo); cbn [prune_action]; rewrite Ed, Es; reflexivity|]. apply reaches_refl.
    - injection Ep as <- <-. eapply reaches_step; [rewrite (action_prune _ _ _ ps Eo); cbn [prune_action]; rewrite Ed; reflexivity|]. apply reaches_refl.
    - injection Ep as <- <-. eapply reaches_step; [rewrite (action_prune _ _ _ ps Eo); cbn [prune_action]; rewrite Ed; reflexivity|]. apply reaches_refl. }
  assert (Henq : forall e, o = OpEnqueue e -> reaches t QStart (fst (pg_step ident now t o)) (QDone (snd (pg_step ident now t o)))).
  { intros e Eo. rewrite Eo. cbn [pg_step]. unfold pg_enqueue. destruct (eq_criteria e) as [uq|] eqn:Euq.
    - destruct (pg_insert_unique ident now uq e t) as [t' r] eqn:Ei. cbn [fst snd]. unfold pg_insert_unique in Ei.
      eapply reaches_step; [rewrite (action_unique _ _ _ e uq Eo Euq); reflexivity|].
      eapply reaches_step; [rewrite (action_unique _ _ _ e uq Eo Euq); cbn [unique_action]; rewrite not_held; [reflexivity|exact Ha]|].
      destruct (pg_window uq (eq_scheduled_at e)) as [w|] eqn:Ew.
      2: { injection Ei as <- <-. eapply reaches_step; [rewrite (action_unique _ _ _ e uq Eo Euq); cbn [unique_action]; rewrite Ew; reflexivity|]. apply reaches_refl. }
      destruct (negb (pg_window_ok uq (eq_executor e) w)) eqn:Eok.
      { injection Ei as <- <-. eapply reaches_step; [rewrite (action_unique _ _ _ e uq Eo Euq); cbn [unique_action]; rewrite Ew, Eok; reflexivity|]. apply reaches_refl. }
      destruct (find (pg_conflict uq (eq_executor e) w) (t_rows t)) as [r0|] eqn:Ef.
      + assert (Hf0 : find_row (r_id r0) (t_rows t) = Some r0) by (apply find_some in Ef; apply find_row_in; tauto).
        eapply reaches_step; [rewrite (action_unique _ _ _ e uq Eo Euq); cbn [unique_action]; rewrite Ew, Eok, nth_first, Ef; reflexivity|].
        unfold pg_resolve in Ei. destruct (uc_on_conflict uq) as [|rp] eqn:Eoc; [injection Ei as <- <-; apply reaches_refl|].
        destruct (existsb (fun s => String.eqb (label s) (r_status r0)) (rp_for_statuses rp)); [|injection Ei as <- <-; apply reaches_refl].
        eapply reaches_step; [rewrite (action_unique _ _ _ e uq Eo Euq); cbn [unique_action]; rewrite Hf0, not_locked; [reflexivity|exact Hr|intros []]|].
        destruct (pg_replace rp e (r_id r0) t) as [t1|] eqn:Er; injection Ei as <- <-;
          (eapply reaches_step; [rewrite (action_unique _ _ _ e uq Eo Euq); cbn [unique_action]; rewrite Eoc; unfold commit_replace; rewrite Er; reflexivity|apply reaches_refl]).
      + eapply reaches_step; [rewrite (action_unique _ _ _ e uq Eo Euq); cbn [unique_action]; rewrite Ew, Eok, nth_first, Ef; reflexivity|].
        unfold pg_insert in Ei. destruct (negb (pg_request_ok e)) eqn:Erq.
        { injection Ei as <- <-. eapply reaches_step; [rewrite (action_unique _ _ _ e uq Eo Euq); cbn [unique_action]; unfold draw; rewrite Erq; reflexivity|apply reaches_refl]. }
        destruct (2147483647 <? t_next t) eqn:En.
        { injection Ei as <- <-. eapply reaches_step; [rewrite (action_unique _ _ _ e uq Eo Euq); cbn [unique_action]; unfold draw; rewrite Erq, En; reflexivity|apply reaches_refl]. }
        injection Ei as <- <-. eapply reaches_step; [rewrite (action_unique _ _ _ e uq Eo Euq); cbn [unique_action]; unfold draw; rewrite Erq, En; reflexivity|].
        eapply reaches_step; [rewrite (action_unique _ _ _ e uq Eo Euq); reflexivity|]. apply reaches_refl.
    - destruct (pg_insert now None e t) as [t' r] eqn:Ei. cbn [fst snd]. unfold pg_insert in Ei.
      destruct (negb (pg_request_ok e)) eqn:Erq.
      { injection Ei as <- <-. eapply reaches_step; [rewrite (action_insert _ _ _ e Eo Euq); cbn [insert_action]; unfold draw; rewrite Erq; reflexivity|apply reaches_refl]. }
      destruct (2147483647 <? t_next t) eqn:En.
      { injection Ei as <- <-. eapply reaches_step; [rewrite (action_insert _ _ _ e Eo Euq); cbn [insert_action]; unfold draw; rewrite Erq, En; reflexivity|apply reaches_refl]. }
      injection Ei as <- <-. eapply reaches_step; [rewrite (action_insert _ _ _ e Eo Euq); cbn [insert_action]; unfold draw; rewrite Erq, En; reflexivity|].
      eapply reaches_step; [rewrite (action_insert _ _ _ e Eo Euq); reflexivity|]. apply reaches_refl. }
  destruct o as [e|ex|id|id at_ er|id er|id er|id at_|ps|id|j|q|ex| |] eqn:Eo;
    first [apply (Henq _ eq_refl) | apply (Hload _ eq_refl) | apply (Hprune _ eq_refl) | apply (Hrow _ eq_refl)
          | apply Hplain; reflexivity].
Qed.

(** * Calls can finish *)

Definition finishes (t : tbl) (pc : qpc) : Prop := exists t' r, reaches t pc t' (QDone r).
Lemma finishes_done t r : finishes t (QDone r).
Proof. exists t, r. apply reaches_refl. Qed.
Lemma finishes_step t pc t1 pc1 ev :
  action ident i now 0 (set_nth i (mk_qcall o pc) cs) t (mk_qcall o pc) = (t1, pc1, ev) -> finishes t1 pc1 -> finishes t pc.
Proof. intros H [t' [r Hr]]. exists t', r. eapply reaches_step; eauto. Qed.

Lemma commit_replace_done rp e id t : exists t' r ev, commit_replace i rp e id t = (t', QDone r, ev).
Proof. unfold commit_replace. destruct (pg_replace rp e id t); eauto. Qed.

Lemma one_step_finishes t pc : (exists t1 r ev, action ident i now 0 (set_nth i (mk_qcall o pc) cs) t (mk_qcall o pc) = (t1, QDone r, ev)) -> finishes t pc.
Proof. intros [t1 [r [ev H]]]. eapply finishes_step; [exact H|apply finishes_done]. Qed.

Lemma held_finishes t n id : stands o (QHeld n id) -> finishes t (QHeld n id).
Proof.
  intro Hs. apply one_step_finishes. assert (Hc : (exists ex, o = OpLoad ex) \/ target o = Some id) by (inversion Hs; eauto).
  destruct Hc as [[ex Eo']|Et].
  - rewrite (action_load _ _ _ ex Eo'). cbn [load_action].
    destruct (find_row id (t_rows t)) as [r|]; [|eauto]. destruct (update_rows id (pg_take n) (t_rows t)) as [[l k]|]; [|eauto].
    destruct (pg_take n r); eauto.
  - rewrite (action_row _ _ _ id Et). cbn [row_action]. destruct (pg_step ident n t o) as [t1 r1]. eauto.
Qed.
Lemma replacing_finishes t n id : stands o (QReplacing n id) -> finishes t (QReplacing n id).
Proof.
  intro Hs. apply one_step_finishes. assert (Hc : exists e uq rp, o = OpEnqueue e /\ eq_criteria e = Some uq /\ uc_on_conflict uq = Replace rp) by (inversion Hs; eauto 8).
  destruct Hc as [e [uq [rp [Eo [Euq Eoc]]]]]. rewrite (action_unique _ _ _ e uq Eo Euq). cbn [unique_action]. rewrite Eoc.
  destruct (commit_replace_done rp e id t) as [t1 [r [ev ->]]]. eauto.
Qed.
Lemma drawn_finishes t n id : stands o (QDrawn n id) -> finishes t (QDrawn n id).
Proof.
  intro Hs. apply one_step_finishes. assert (Hc : exists e, o = OpEnqueue e) by (inversion Hs; try discriminate; eauto).
  destruct Hc as [e Eo].
  destruct (eq_criteria e) as [uq|] eqn:Euq.
  - rewrite (action_unique _ _ _ e uq Eo Euq). cbn [unique_action]. unfold commit_insert. eauto.
  - rewrite (action_insert _ _ _ e Eo Euq). cbn [insert_action]. unfold commit_insert. eauto.
Qed.
Lemma free_finishes t n : stands o (QFree n) -> finishes t (QFree n).
Proof.
  intro Hs. assert (Hc : exists e uq, o = OpEnqueue e /\ eq_criteria e = Some uq) by (inversion Hs; eauto).
  destruct Hc as [e [uq [Eo Euq]]].
  destruct (draw n t e) as [t1 pc1] eqn:Ed.
  eapply finishes_step; [rewrite (action_unique _ _ _ e uq Eo Euq); cbn [unique_action]; rewrite Ed; reflexivity|].
  destruct (draw_pc _ _ _ _ _ Ed) as [[r ->]|[n1 [id ->]]]; [apply finishes_done|]. apply drawn_finishes. rewrite Eo. constructor.
Qed.
Lemma found_finishes t n id : rows_free -> stands o (QFound n id) -> finishes t (QFound n id).
Proof.
  intros Hr Hs. assert (Hc : exists e uq rp, o = OpEnqueue e /\ eq_criteria e = Some uq /\ uc_on_conflict uq = Replace rp) by (inversion Hs; eauto 8).
  destruct Hc as [e [uq [rp [Eo [Euq Eoc]]]]].
  destruct (find_row id (t_rows t)) as [r|] eqn:Ef.
  - eapply finishes_step; [rewrite (action_unique _ _ _ e uq Eo Euq); cbn [unique_action]; rewrite Ef, not_locked; [reflexivity|exact Hr|intros []]|].
    apply replacing_finishes. rewrite Eo. econstructor; eauto.
  - apply one_step_finishes. rewrite (action_unique _ _ _ e uq Eo Euq). cbn [unique_action]. rewrite Ef, Eoc.
    destruct (commit_replace_done rp e id t) as [t1 [r [ev ->]]]. eauto.
Qed.
Lemma alone_finishes t n : rows_free -> stands o (QAlone n) -> finishes t (QAlone n).
Proof.
  intros Hr Hs. assert (Hc : exists e uq, o = OpEnqueue e /\ eq_criteria e = Some uq) by (inversion Hs; eauto).
  destruct Hc as [e [uq [Eo Euq]]].
  destruct (unique_action ident i now 0 (set_nth i (mk_qcall o (QAlone n)) cs) t e uq (QAlone n)) as [[t1 pc1] ev] eqn:Ea.
  eapply finishes_step; [rewrite (action_unique _ _ _ e uq Eo Euq); exact Ea|]. cbn [unique_action] in Ea.
  destruct (pg_window uq (eq_scheduled_at e)) as [w|]; [|injection Ea as <- <- <-; apply finishes_done].
  destruct (negb (pg_window_ok uq (eq_executor e) w)); [injection Ea as <- <- <-; apply finishes_done|].
  rewrite nth_first in Ea. destruct (find (pg_conflict uq (eq_executor e) w) (t_rows t)) as [r|].
  - injection Ea as <- <- <-. destruct (uc_on_conflict uq) as [|rp] eqn:Eoc; [apply finishes_done|].
    destruct (existsb _ _); [|apply finishes_done]. apply found_finishes; [exact Hr|]. rewrite Eo. econstructor; eauto.
  - injection Ea as <- <- <-. apply free_finishes. rewrite Eo. econstructor; eauto.
Qed.
Lemma begun_finishes t n : rows_free -> advisories_free -> stands o (QBegun n) -> finishes t (QBegun n).
Proof.
  intros Hr Ha Hs. assert (Hc : exists e uq, o = OpEnqueue e /\ eq_criteria e = Some uq) by (inversion Hs; eauto).
  destruct Hc as [e [uq [Eo Euq]]].
  eapply finishes_step; [rewrite (action_unique _ _ _ e uq Eo Euq); cbn [unique_action]; rewrite not_held; [reflexivity|exact Ha]|].
  apply alone_finishes; [exact Hr|]. rewrite Eo. econstructor; eauto.
Qed.
Lemma scan_finishes t n ids : rows_free -> stands o (QScan n ids) -> finishes t (QScan n ids).
Proof.
  intros Hr Hs. assert (Eo : exists ex, o = OpLoad ex) by (inversion Hs; eauto). destruct Eo as [ex Eo]. clear Hs.
  induction ids as [|id ids IH]; [eapply finishes_step; [rewrite (action_load _ _ _ ex Eo); reflexivity|apply finishes_done]|].
  destruct (find_row id (t_rows t)) as [r|] eqn:Ef; [destruct (pg_ready n ex r) eqn:Er|].
  - eapply finishes_step; [rewrite (action_load _ _ _ ex Eo); cbn [load_action]; rewrite not_locked, Ef, Er; [reflexivity|exact Hr|intros []]|].
    apply held_finishes. rewrite Eo. constructor.
  - eapply finishes_step; [rewrite (action_load _ _ _ ex Eo); cbn [load_action]; rewrite not_locked, Ef, Er; [reflexivity|exact Hr|intros []]|exact IH].
  - eapply finishes_step; [rewrite (action_load _ _ _ ex Eo); cbn [load_action]; rewrite not_locked, Ef; [reflexivity|exact Hr|intros []]|exact IH].
Qed.
Lemma all_finishes t pc : NoDup (map r_id (t_rows t)) -> rows_free -> advisories_free -> stands o pc ->
  (forall n a b, pc <> QDooming n a b) -> finishes t pc.
Proof.
  intros Hn Hr Ha Hs Hd. destruct pc.
  - eexists. eexists. apply solo; assumption.
  - apply scan_finishes; assumption.
  - apply held_finishes; assumption.
  - apply begun_finishes; assumption.
  - apply alone_finishes; assumption.
  - apply free_finishes; assumption.
  - apply found_finishes; assumption.
  - apply replacing_finishes; assumption.
  - apply drawn_finishes; assumption.
  - destruct (Hd _ _ _ eq_refl).
  - apply finishes_done.
Qed.
End Solo.

Definition unfinished (c : qcall) : bool := match qc_pc c with QDone _ => false | _ => true end.
Definition pending (cs : list qcall) : nat := length (filter unfinished cs).

Lemma pending_set i o pc r : forall cs, nth_error cs i = Some (mk_qcall o pc) -> unfinished (mk_qcall o pc) = true ->
  S (pending (set_nth i (mk_qcall o (QDone r)) cs)) = pending cs.
Proof.
  unfold pending. induction i as [|i IH]; intros [|c cs] H Hu; try discriminate; cbn [set_nth nth_error filter] in *.
  - injection H as ->. rewrite Hu. reflexivity.
  - destruct (unfinished c); cbn [length]; rewrite <- (IH cs H Hu); reflexivity.
Qed.
Lemma search (f : qcall -> bool) cs :
  (exists i c, nth_error cs i = Some c /\ f c = true) \/ (forall i c, nth_error cs i = Some c -> f c = false).
Proof.
  induction cs as [|x cs [[i [c [H1 H2]]]|IH]]; [right; intros [|i] c H; discriminate|left; exists (S i), c; auto|].
  destruct (f x) eqn:E; [left; exists O, x; auto|]. right. intros [|i] c H; [injection H as <-; exact E|eapply IH; exact H].
Qed.

(** * Prunes *)

Lemma action_effect_stands k n p s t' o pc m tk rs ev : qinv s -> nth_error (q_calls s) k = Some (mk_qcall o pc) ->
  action ident k n p (q_calls s) (q_tbl s) (mk_qcall o pc) = (t', QDooming m tk rs, ev) -> exists ps, o = OpPrune ps.
Proof.
  intros Hinv Hk Hact. pose proof (step_inv ident s (QRun k n p) Hinv) as Hi'.
  destruct (qstep_run ident s k n p _ Hk) as [t1 [pc1 [ev1 [Ha E]]]]. rewrite Hact in Ha. injection Ha as <- <- <-. rewrite E in Hi'.
  pose proof (iv_stands _ Hi' k (mk_qcall o (QDooming m tk rs))) as Hs. cbn [fst q_calls qc_op qc_pc] in Hs.
  rewrite set_nth_nth, Nat.eqb_refl, Hk in Hs. specialize (Hs eq_refl). inversion Hs; subst. eauto.
Qed.

(** A prune locks every row once. *)
Definition tidy (s : qstate) : Prop := forall i c now taken rest,
  nth_error (q_calls s) i = Some c -> qc_pc c = QDooming now taken rest -> NoDup (taken ++ rest).
Lemma tidy_opened t : tidy (opened t).
Proof. intros [|i] c now taken rest H; discriminate. Qed.
Lemma tidy_step s l : qinv s -> tidy s -> tidy (fst (qstep ident s l)).
Proof.
  intros Hinv Ht i c' now taken rest Hc' Hpc. destruct l as [o|k n p|k e].
  - cbn [qstep fst q_calls] in Hc'. apply nth_snoc in Hc'. destruct Hc' as [Hc'| ->]; [exact (Ht _ _ _ _ _ Hc' Hpc)|discriminate].
  - destruct (nth_error (q_calls s) k) as [d|] eqn:Hk; [|cbn [qstep] in Hc'; rewrite Hk in Hc'; exact (Ht _ _ _ _ _ Hc' Hpc)].
    destruct (qstep_run ident s k n p d Hk) as [t' [pc' [ev [Hact E]]]]. rewrite E in Hc'. cbn [fst q_calls] in Hc'.
    apply nth_set in Hc'. destruct Hc' as [[-> [-> _]]|[_ Hc']]; [|exact (Ht _ _ _ _ _ Hc' Hpc)]. cbn [qc_pc] in Hpc. subst pc'.
    pose proof (iv_stands s Hinv k d Hk) as Hs. destruct d as [o pc]. cbn [qc_op qc_pc] in *.
    destruct (action_effect_stands k n p s t' o pc now taken rest ev Hinv Hk Hact) as [ps ->].
    unfold action in Hact. cbn [qc_op qc_pc] in Hact. destruct pc as [|? ?|? ?|?|?|?|? ?|? ?|? ?|m tk rs|r]; cbn [prune_action] in Hact; try discriminate.
    + destruct (pg_doomed n ps (t_rows (q_tbl s))) as [[ids|]|] eqn:Ed; try discriminate.
      destruct (pg_spec_ok (ps_executors ps)); [|discriminate]. injection Hact as _ _ <- <- _. cbn [app].
      apply (doomed_present n ps _ ids Ed (iv_nodup s Hinv)).
    + pose proof (Ht k _ m tk rs Hk eq_refl) as Hn. destruct rs as [|id rs]; [discriminate|].
      destruct (find_row id (t_rows (q_tbl s))).
      * destruct (row_locked (q_calls s) id); injection Hact as _ _ <- <- _; [exact Hn|].
        cbn [app]. apply NoDup_cons; [apply NoDup_remove_2 in Hn; exact Hn|apply NoDup_remove_1 in Hn; exact Hn].
      * injection Hact as _ _ <- <- _. apply NoDup_remove_1 in Hn. exact Hn.
  - cbn [qstep] in Hc'. destruct (nth_error (q_calls s) k) as [d|] eqn:Hk; [|exact (Ht _ _ _ _ _ Hc' Hpc)]. cbn [fst q_calls] in Hc'.
    apply nth_set in Hc'. destruct Hc' as [[-> [-> _]]|[_ Hc']]; [discriminate Hpc|exact (Ht _ _ _ _ _ Hc' Hpc)].
Qed.
Lemma tidy_run ls : forall s, qinv s -> tidy s -> tidy (qrun ident s ls).
Proof. induction ls as [|l ls IH]; intros s Hi Ht; [exact Ht|]. apply IH; [apply step_inv, Hi|apply tidy_step; assumption]. Qed.

(** * All calls can finish *)

Definition tornb (c : qcall) : bool := match qc_pc c with QDooming _ (_ :: _) (_ :: _) => true | _ => false end.
Lemma torn_iff s i : qinv s -> (torn s i <-> exists c, nth_error (q_calls s) i = Some c /\ tornb c = true).
Proof.
  intro Hinv. split.
  - intros [ps [now [tk [rs [H [H1 H2]]]]]]. eexists. split; [exact H|]. unfold tornb. cbn [qc_pc]. destruct tk; [contradiction|]. destruct rs; [contradiction|reflexivity].
  - intros [[o pc] [H Hb]]. unfold tornb in Hb. cbn [qc_pc] in Hb. destruct pc as [|? ?|? ?|?|?|?|? ?|? ?|? ?|m tk rs|r]; try discriminate.
    pose proof (iv_stands s Hinv i _ H) as Hs. cbn [qc_op qc_pc] in Hs. inversion Hs; subst.
    destruct tk as [|a tk]; [discriminate|]. destruct rs as [|b rs]; [discriminate|]. exists ps, m, (a :: tk), (b :: rs).
    split; [exact H|]. split; discriminate.
Qed.
(** Two prunes never wait for each other. *)
Definition calm (s : qstate) : Prop := forall i k c d, nth_error (q_calls s) i = Some c -> nth_error (q_calls s) k = Some d ->
  tornb c = true -> tornb d = true -> i = k.

Lemma dooming_finishes i o cs now c0 t n : nth_error cs i = Some c0 -> rows_free i cs -> forall rest taken,
  (exists ps, o = OpPrune ps) -> NoDup (taken ++ rest) -> finishes i o cs now t (QDooming n taken rest).
Proof.
  intros Hi Hr. induction rest as [|id rest IH]; intros taken [ps Eo] Hn.
  - eapply one_step_finishes; [exact Hi|]. rewrite (action_prune _ _ _ _ _ _ ps Eo). cbn [prune_action]. eauto.
  - destruct (find_row id (t_rows t)) as [r|] eqn:Ef.
    + eapply finishes_step; [exact Hi| |apply (IH (id :: taken)); [eauto|]].
      * rewrite (action_prune _ _ _ _ _ _ ps Eo). cbn [prune_action]. rewrite Ef, (not_locked i o cs); [reflexivity|exact Hr|].
        cbn [row_locks qc_pc]. intro Hin. apply NoDup_remove_2 in Hn. apply Hn. apply in_or_app. left. exact Hin.
      * cbn [app]. apply NoDup_cons; [apply NoDup_remove_2 in Hn; exact Hn|apply NoDup_remove_1 in Hn; exact Hn].
    + eapply finishes_step; [exact Hi| |apply (IH taken); [eauto|]].
      * rewrite (action_prune _ _ _ _ _ _ ps Eo). cbn [prune_action]. rewrite Ef. reflexivity.
      * apply NoDup_remove_1 in Hn. exact Hn.
Qed.

(** A step taken at [now]. *)
Definition plain (now : time) (l : qlabel) : Prop := exists i, l = QRun i now 0.
Lemma plain_advances now ls : Forall (plain now) ls -> Forall advances ls.
Proof. apply Forall_impl. intros l [i ->]. exact Logic.I. Qed.

Lemma one_more s (now : time) : qinv s -> tidy s -> calm s -> (pending (q_calls s) <> 0)%nat ->
  exists ls, Forall (plain now) ls /\ calm (qrun ident s ls) /\ (S (pending (q_calls (qrun ident s ls))) = pending (q_calls s))%nat.
Proof.
  intros Hinv Htidy Hcalm Hp.
  assert (Hfin : forall i o pc, nth_error (q_calls s) i = Some (mk_qcall o pc) -> unfinished (mk_qcall o pc) = true ->
    finishes i o (q_calls s) now (q_tbl s) pc ->
    exists ls, Forall (plain now) ls /\ calm (qrun ident s ls) /\ (S (pending (q_calls (qrun ident s ls))) = pending (q_calls s))%nat).
  { intros i o pc Hi Hu [t' [r [n Hn]]]. exists (repeat (QRun i now 0) n). split.
    - apply Forall_forall. intros l Hl. apply repeat_spec in Hl. subst l. exists i. reflexivity.
    - unfold at_pc in Hn. rewrite (set_nth_same i _ _ Hi) in Hn. replace (mk_q (q_tbl s) (q_calls s)) with s in Hn by (destruct s; reflexivity).
      rewrite Hn. cbn [q_calls]. split; [|eapply pending_set; eassumption].
      intros a b c d Ha Hb Hc Hd. cbn [q_calls] in *. apply nth_set in Ha, Hb.
      destruct Ha as [[-> [-> _]]|[_ Ha]]; [discriminate|]. destruct Hb as [[-> [-> _]]|[_ Hb]]; [discriminate|].
      eapply Hcalm; eassumption. }
  assert (Hdoom : forall i o n tk rs, nth_error (q_calls s) i = Some (mk_qcall o (QDooming n tk rs)) -> rows_free i (q_calls s) ->
    finishes i o (q_calls s) now (q_tbl s) (QDooming n tk rs)).
  { intros i o n tk rs Hi Hr. pose proof (iv_stands s Hinv i _ Hi) as Hs. cbn [qc_op qc_pc] in Hs.
    eapply dooming_finishes; [exact Hi|exact Hr|inversion Hs; eauto|eapply Htidy; [exact Hi|reflexivity]]. }
  destruct (search (fun c => match row_locks c with [] => false | _ => negb (tornb c) end) (q_calls s)) as [[i [[o pc] [Hi Hl]]]|Hl].
  { pose proof (iv_stands s Hinv i _ Hi) as Hs. cbn [qc_op qc_pc] in *. unfold row_locks, tornb in Hl. cbn [qc_pc] in Hl.
    destruct pc as [|? ?|? ?|?|?|?|? ?|? ?|? ?|m tk rs|r]; try discriminate.
    - apply (Hfin i o _ Hi eq_refl). eapply held_finishes; eassumption.
    - apply (Hfin i o _ Hi eq_refl). eapply replacing_finishes; eassumption.
    - destruct tk as [|a tk]; [discriminate|]. destruct rs; [|discriminate]. apply (Hfin i o _ Hi eq_refl). inversion Hs; subst.
      eapply one_step_finishes; [exact Hi|]. cbn [action qc_op qc_pc prune_action]. eauto. }
  destruct (search tornb (q_calls s)) as [[i [[o pc] [Hi Hd]]]|Hd].
  { assert (Hr : rows_free i (q_calls s)).
    { intros k c Hne Hk. specialize (Hl k c Hk). destruct (row_locks c) eqn:El; [reflexivity|]. exfalso. apply Hne.
      apply (Hcalm k i c _ Hk Hi); [|exact Hd]. apply negb_false_iff. exact Hl. }
    unfold tornb in Hd. cbn [qc_pc] in Hd. destruct pc as [|? ?|? ?|?|?|?|? ?|? ?|? ?|m tk rs|r]; try discriminate.
    apply (Hfin i o _ Hi eq_refl). apply Hdoom; [exact Hi|exact Hr]. }
  assert (Hrows : forall i, rows_free i (q_calls s)).
  { intros i k c _ Hk. specialize (Hl k c Hk). specialize (Hd k c Hk). rewrite Hd in Hl. destruct (row_locks c); [reflexivity|discriminate]. }
  destruct (search (fun c => match advisory ident c with Some _ => true | None => false end) (q_calls s)) as [[i [[o pc] [Hi Ha]]]|Ha].
  { pose proof (iv_stands s Hinv i _ Hi) as Hs. cbn [qc_op qc_pc] in Hs.
    assert (Hu : unfinished (mk_qcall o pc) = true).
    { unfold advisory in Ha. cbn [qc_op qc_pc] in Ha. destruct o; try discriminate. destruct pc; try discriminate; reflexivity. }
    apply (Hfin i o pc Hi Hu). unfold advisory in Ha. cbn [qc_op qc_pc] in Ha. destruct o as [e| | | | | | | | | | | | |]; try discriminate. destruct pc; try discriminate.
    - eapply alone_finishes; eauto.
    - eapply free_finishes; eauto.
    - eapply found_finishes; eauto.
    - eapply replacing_finishes; eauto.
    - eapply drawn_finishes; eauto. }
  assert (Hadv : forall i, advisories_free i (q_calls s)).
  { intros i k c _ Hk. specialize (Ha k c Hk). destruct (advisory ident c); [discriminate|reflexivity]. }
  destruct (search unfinished (q_calls s)) as [[i [[o pc] [Hi Hu]]]|Hu].
  - apply (Hfin i o pc Hi Hu). assert (Hc : (exists n a b, pc = QDooming n a b) \/ forall n a b, pc <> QDooming n a b).
    { destruct pc; try (right; discriminate). left. eauto. }
    destruct Hc as [[n [a [b ->]]]|Hc]; [apply Hdoom; [exact Hi|apply Hrows]|]. eapply all_finishes; eauto.
    + apply (iv_nodup s Hinv).
    + apply (iv_stands s Hinv i _ Hi).
  - exfalso. apply Hp. unfold pending. destruct (filter unfinished (q_calls s)) as [|c l] eqn:E; [reflexivity|].
    assert (Hin : In c (filter unfinished (q_calls s))) by (rewrite E; left; reflexivity). apply filter_In in Hin. destruct Hin as [Hin Hc].
    apply In_nth_error in Hin. destruct Hin as [k Hk]. rewrite (Hu k c Hk) in Hc. discriminate.
Qed.

Lemma progress (now : time) : forall n s, qinv s -> tidy s -> calm s -> pending (q_calls s) = n ->
  exists ls, Forall (plain now) ls /\ all_finished (qrun ident s ls).
Proof.
  induction n as [|n IH]; intros s Hinv Ht Hcm Hn.
  - exists []. split; [constructor|]. intros i c Hc. cbn [qrun] in Hc. destruct (unfinished c) eqn:E.
    + exfalso. unfold pending in Hn. assert (Hin : In c (filter unfinished (q_calls s))) by (apply filter_In; split; [eapply nth_error_In; exact Hc|exact E]).
      destruct (filter unfinished (q_calls s)); [destruct Hin|discriminate].
    + unfold unfinished in E. destruct (qc_pc c); try discriminate. eauto.
  - destruct (one_more s now Hinv Ht Hcm) as [l1 [H1 [H2 H5]]]; [lia|].
    destruct (IH (qrun ident s l1)) as [l2 [H3 H4]]; [apply run_inv; exact Hinv|apply tidy_run; assumption|exact H2|lia|].
    exists (l1 ++ l2). split; [apply Forall_app; auto|]. rewrite qrun_app. exact H4.
Qed.

(** Ending the torn prunes leaves a calm state. *)
Lemma ending e gone : forall s k c, nth_error (q_calls (qrun ident s (map (fun i => QAbort i e) gone))) k = Some c ->
  (In k gone /\ tornb c = false) \/ (~ In k gone /\ nth_error (q_calls s) k = Some c).
Proof.
  induction gone as [|i gone IH]; intros s k c H; [right; split; [intros []|exact H]|]. cbn [map qrun] in H. apply IH in H.
  destruct H as [[H1 H2]|[H1 H2]]; [left; split; [right; exact H1|exact H2]|].
  cbn [qstep] in H2. destruct (nth_error (q_calls s) i) as [d|] eqn:Hd.
  - cbn [fst q_calls] in H2. apply nth_set in H2. destruct H2 as [[-> [-> _]]|[Hne H2]]; [left; split; [left; reflexivity|reflexivity]|].
    right. split; [intros [E|H]; [congruence|contradiction]|exact H2].
  - right. split; [|exact H2]. intros [->|H]; [cbn [fst] in H2; congruence|contradiction].
Qed.
Definition torn_list (s : qstate) : list nat :=
  filter (fun i => match nth_error (q_calls s) i with Some c => tornb c | None => false end) (seq 0 (length (q_calls s))).
Lemma torn_list_in s i : In i (torn_list s) <-> exists c, nth_error (q_calls s) i = Some c /\ tornb c = true.
Proof.
  unfold torn_list. rewrite filter_In, in_seq. split.
  - intros [_ H]. destruct (nth_error (q_calls s) i) as [c|]; [eauto|discriminate].
  - intros [c [H Hb]]. rewrite H. split; [|exact Hb]. split; [lia|]. apply nth_error_Some. congruence.
Qed.
Lemma can_settle now s : qinv s -> tidy s -> exists gone ls,
  (forall i, In i gone -> torn s i /\ exists k, k <> i /\ torn s k) /\ Forall (plain now) ls
  /\ all_finished (qrun ident s (map (fun i => QAbort i BadState) gone ++ ls)).
Proof.
  intros Hinv Ht. destruct (torn_list s) as [|a [|b l]] eqn:El.
  1, 2: assert (Hcm : calm s) by
    (intros i k c d Hi Hk Hc Hd; assert (Ti : In i (torn_list s)) by (apply torn_list_in; eauto);
     assert (Tk : In k (torn_list s)) by (apply torn_list_in; eauto); rewrite El in Ti, Tk; cbn in Ti, Tk;
     intuition congruence);
    destruct (progress now _ s Hinv Ht Hcm eq_refl) as [ls [H1 H2]];
    exists [], ls; split; [intros i []|]; split; [exact H1|exact H2].
  set (gone := torn_list s).
  set (s1 := qrun ident s (map (fun i => QAbort i BadState) gone)).
  assert (Hcm : calm s1).
  { intros i k c d Hi _ Hc _. exfalso. destruct (ending _ _ _ _ _ Hi) as [[_ H]|[H1 H2]]; [congruence|]. apply H1. apply torn_list_in. eauto. }
  destruct (progress now _ s1 (run_inv ident _ _ Hinv) (tidy_run _ _ Hinv Ht) Hcm eq_refl) as [ls [H1 H2]].
  assert (Htl : forall i, In i (torn_list s) -> torn s i) by (intros i Hi; apply torn_iff; [exact Hinv|]; apply torn_list_in; exact Hi).
  assert (Hn : NoDup (torn_list s)) by (apply NoDup_filter, seq_NoDup). rewrite El in Hn, Htl.
  assert (Hab : a <> b) by (intros ->; inversion Hn as [|x y Hx]; apply Hx; left; reflexivity).
  exists gone, ls. split; [|split; [exact H1|rewrite qrun_app; exact H2]].
  unfold gone. rewrite El. intros i Hi. split; [exact (Htl i Hi)|]. destruct (Nat.eq_dec i a) as [->|Hia].
  - exists b. split; [congruence|]. apply Htl. cbn. auto.
  - exists a. split; [congruence|]. apply Htl. cbn. auto.
Qed.
Lemma can_finish s : qinv s -> tidy s -> exists gone ls,
  (forall i, In i gone -> torn s i) /\ Forall advances ls
  /\ all_finished (qrun ident s (map (fun i => QAbort i BadState) gone ++ ls))
  /\ ((forall i k, torn s i -> torn s k -> i = k) -> gone = []).
Proof.
  intros Hinv Ht. destruct (can_settle 0 s Hinv Ht) as [gone [ls [H1 [H2 H3]]]]. exists gone, ls.
  split; [apply H1|]. split; [eapply plain_advances; exact H2|]. split; [exact H3|]. intro Hone.
  destruct gone as [|i gone]; [reflexivity|]. exfalso. destruct (H1 i (or_introl eq_refl)) as [Hi [k [Hne Hk]]]. exact (Hne (Hone k i Hk Hi)).
Qed.

(** * Hand-outs prefer the best row *)

Lemma ready_due now ex r : kept_time now -> (pg_ready now ex r = true <-> row_due now ex r).
Proof.
  intro Hn. unfold pg_ready, row_due. rewrite !andb_true_iff, orb_true_iff, !String.eqb_eq, Z.ltb_lt.
  destruct (pg_time_kept now Hn) as [-> _]. unfold dt_diff, ns_per_ms, time in *. intuition lia.
Qed.
Lemma leb_not_before a b : pg_leb a b = true -> ~ row_before b a.
Proof. unfold pg_leb, row_before. destruct (Z.compare_spec (r_priority a) (r_priority b)); rewrite ?Z.leb_le; unfold time in *; intros; try discriminate; lia. Qed.

Section Order.
Variables (i : nat) (ex : string) (now : time) (r : row) (S0 : list row).
Hypothesis Hready : pg_ready now ex r = true.

Definition choosing (s : qstate) : Prop :=
  exists pc, nth_error (q_calls s) i = Some (mk_qcall (OpLoad ex) pc) /\
  match pc with
  | QScan n ids => n = now /\ exists pre suf, S0 = pre ++ suf /\ ids = map r_id suf /\ In r suf
  | QHeld n id => n = now /\ exists pre b suf, S0 = pre ++ b :: suf /\ r_id b = id /\ In r (b :: suf)
  | QDone res => res <> RJob (Ok None) /\
      forall j, res = RJob (Ok (Some j)) -> exists pre b suf, S0 = pre ++ b :: suf /\ r_id b = j_id j /\ In r (b :: suf)
  | _ => False
  end.

Lemma other_step s l k c : nth_error (q_calls s) k = Some c -> (forall n p, l <> QRun k n p) ->
  (forall e, l <> QAbort k e) -> nth_error (q_calls (fst (qstep ident s l))) k = Some c.
Proof.
  intros Hk Hl Hp. destruct l as [o|m n p|m e].
  - cbn. rewrite nth_error_app1; [exact Hk|apply nth_error_Some; congruence].
  - destruct (nth_error (q_calls s) m) as [d|] eqn:Hm; [|cbn [qstep]; rewrite Hm; exact Hk].
    destruct (qstep_run ident s m n p d Hm) as [t' [pc' [ev [_ ->]]]]. cbn [fst q_calls]. rewrite set_nth_nth.
    destruct (Nat.eqb_spec m k) as [->|_]; [destruct (Hl n p eq_refl)|exact Hk].
  - cbn [qstep]. destruct (nth_error (q_calls s) m) as [d|] eqn:Hm; [|exact Hk]. cbn [fst q_calls]. rewrite set_nth_nth.
    destruct (Nat.eqb_spec m k) as [->|_]; [destruct (Hp e eq_refl)|exact Hk].
Qed.

Lemma choosing_step s l : qinv s -> choosing s ->
  ((exists o res, finished s i o res)
   \/ (In r (t_rows (q_tbl s)) /\ forall k c, k <> i -> nth_error (q_calls s) k = Some c -> ~ In (r_id r) (row_locks c))) ->
  choosing (fst (qstep ident s l)).
Proof.
  intros Hinv [pc [Hc Hpc]] Hal.
  assert (Hsame : (forall n p, l <> QRun i n p) -> (forall e, l <> QAbort i e) -> choosing (fst (qstep ident s l))).
  { intros Hl Hl'. exists pc. split; [|exact Hpc]. apply other_step; [exact Hc|exact Hl|exact Hl']. }
  destruct l as [o|k n p|k e]; [apply Hsame; discriminate| |].
  2:{ destruct (Nat.eq_dec k i) as [->|Hne]; [|apply Hsame; congruence]. unfold choosing. cbn [qstep]. rewrite Hc. cbn [fst q_calls qc_op].
      eexists. split; [rewrite set_nth_nth, Nat.eqb_refl, Hc; reflexivity|]. unfold gives_up. cbn [qc_op qc_pc failed].
      split; [discriminate|intros j E; discriminate]. }
  destruct (Nat.eq_dec k i) as [->|Hne]; [|apply Hsame; congruence]. clear Hsame.
  destruct (qstep_run ident s i n p _ Hc) as [t' [pc' [ev [Hact ->]]]]. cbn [fst]. unfold choosing. cbn [q_calls qc_op].
  exists pc'. split; [rewrite set_nth_nth, Nat.eqb_refl, Hc; reflexivity|].
  unfold action in Hact. cbn [qc_op qc_pc] in Hact.
  destruct pc; try contradiction.
  - destruct Hpc as [-> [pre [suf [ES [-> Hin]]]]]. destruct suf as [|b suf]; [destruct Hin|]. cbn [map load_action] in Hact.
    assert (Hmove : In r suf -> now = now /\ exists pre0 suf0, S0 = pre0 ++ suf0 /\ map r_id suf = map r_id suf0 /\ In r suf0).
    { intro Hr. split; [reflexivity|]. exists (pre ++ [b]), suf. rewrite <- app_assoc. auto. }
    destruct Hin as [->|Hin].
    + destruct Hal as [[o [res Hf]]|[Hr Hnl]]; [unfold finished in Hf; congruence|].
      assert (Hlk : row_locked (q_calls s) (r_id r) = false).
      { apply not_true_is_false. intro H. apply row_locked_true in H. destruct H as [k [c [Hk Hx]]].
        destruct (Nat.eq_dec k i) as [->|Hne]; [rewrite Hc in Hk; injection Hk as <-; destruct Hx|exact (Hnl k c Hne Hk Hx)]. }
      rewrite Hlk, (find_row_in _ _ (iv_nodup s Hinv) Hr), Hready in Hact. injection Hact as <- <- <-.
      split; [reflexivity|]. exists pre, r, suf. split; [exact ES|]. split; [reflexivity|left; reflexivity].
    + injection Hact as <- <- <-. destruct (row_locked (q_calls s) (r_id b)); [apply Hmove, Hin|].
      destruct (find_row (r_id b) (t_rows (q_tbl s))) as [x|]; [|apply Hmove, Hin].
      destruct (pg_ready now ex x); [|apply Hmove, Hin]. split; [reflexivity|]. exists pre, b, suf. split; [exact ES|]. split; [reflexivity|right; exact Hin].
  - destruct Hpc as [-> [pre [b [suf [ES [Eb Hin]]]]]]. cbn [load_action] in Hact.
    destruct (iv_ready s Hinv i ex now id Hc) as [x [Hf _]]. rewrite Hf in Hact.
    destruct (update_rows id (pg_take now) (t_rows (q_tbl s))) as [[rows m]|]; [|injection Hact as <- <- <-; split; [discriminate|intros j E; discriminate]].
    destruct (pg_take now x) as [x'|] eqn:Et; injection Hact as <- <- <-; [|split; [discriminate|intros j E; discriminate]].
    assert (Hx : r_id x' = id).
    { apply find_row_some in Hf. unfold pg_take in Et. destruct (int4 _); [|discriminate]. injection Et as <-. cbn. tauto. }
    destruct (job_of_row x') as [j|er|] eqn:Ej; (split; [discriminate|]); intros j' E; try discriminate. injection E as <-.
    apply represents_iff in Ej. exists pre, b, suf. split; [exact ES|]. split; [|exact Hin]. destruct Ej as [Ej _]. congruence.
  - cbn [load_action] in Hact. injection Hact as <- <- <-. exact Hpc.
Qed.

Lemma choosing_run ls : forall s, qinv s -> choosing s -> left_alone ident i r s ls -> choosing (qrun ident s ls).
Proof.
  induction ls as [|l ls IH]; intros s Hinv Hc Hal; cbn [qrun]; [exact Hc|]. destruct Hal as [H1 H2].
  apply IH; [apply step_inv; exact Hinv|apply choosing_step; assumption|exact H2].
Qed.
End Order.

Lemma best_first s i ex now pick r ls res : qinv s -> kept_time now -> clean ex ->
  nth_error (q_calls s) i = Some (mk_qcall (OpLoad ex) QStart) -> In r (t_rows (q_tbl s)) -> row_due now ex r ->
  left_alone ident i r s (QRun i now pick :: ls) ->
  finished (qrun ident s (QRun i now pick :: ls)) i (OpLoad ex) res ->
  res <> RJob (Ok None) /\
  forall j, res = RJob (Ok (Some j)) ->
    exists b, In b (t_rows (q_tbl s)) /\ r_id b = j_id j /\ row_due now ex b /\ ~ row_before r b.
Proof.
  intros Hinv Hnow Hex Hc Hr Hd [_ Hal] Hfin. apply (ready_due now ex r Hnow) in Hd.
  set (S0 := stable_sort pg_leb (filter (pg_ready now ex) (t_rows (q_tbl s)))).
  destruct (stable_sort_sorted pg_leb pg_leb_total pg_leb_trans (filter (pg_ready now ex) (t_rows (q_tbl s)))) as [Hsort Hperm]. fold S0 in Hsort, Hperm.
  assert (Hch : choosing i ex now r S0 (qrun ident s (QRun i now pick :: ls))).
  { cbn [qrun]. apply choosing_run; [exact Hd|apply step_inv; exact Hinv| |exact Hal].
    destruct (qstep_run ident s i now pick _ Hc) as [t' [pc' [ev [Hact ->]]]]. cbn [fst]. unfold action in Hact. cbn [qc_op qc_pc load_action] in Hact.
    apply storable_clean in Hex. rewrite Hex in Hact. cbn [negb] in Hact. injection Hact as <- <- <-. fold S0.
    exists (QScan now (map r_id S0)). split; [cbn [q_calls]; rewrite set_nth_nth, Nat.eqb_refl, Hc; reflexivity|]. split; [reflexivity|].
    exists [], S0. split; [reflexivity|]. split; [reflexivity|]. apply (Permutation_in _ Hperm). apply filter_In. auto. }
  destruct Hch as [pc [Hpc Hx]]. unfold finished in Hfin. rewrite Hpc in Hfin. injection Hfin as ->. destruct Hx as [H1 H2]. split; [exact H1|].
  intros j Hj. destruct (H2 j Hj) as [pre [b [suf [ES [Eb Hin]]]]]. exists b.
  assert (Hb : In b (filter (pg_ready now ex) (t_rows (q_tbl s)))).
  { apply (Permutation_in _ (Permutation_sym Hperm)). rewrite ES. apply in_or_app. right. left. reflexivity. }
  apply filter_In in Hb. destruct Hb as [Hb1 Hb2]. split; [exact Hb1|]. split; [exact Eb|]. split; [apply ready_due; assumption|].
  destruct Hin as [->|Hin].
  - unfold row_before. lia.
  - apply leb_not_before. rewrite ES in Hsort. clear -Hsort Hin. induction pre as [|y pre IH]; cbn [app] in Hsort.
    + inversion Hsort as [|? ? _ Hf]. rewrite Forall_forall in Hf. apply Hf, Hin.
    + apply IH. inversion Hsort; assumption.
Qed.
End Live.
