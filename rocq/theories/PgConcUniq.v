(** Lemmas about overlapping unique enqueues. *)
From Coq Require Import Permutation Sorted.
From Verif Require Import Base Chrono Types TypesProofs Query QueryProofs Memory MemSpec MemProofs
  MemInv MemWake PgRow PgQuery Pg PgSpec PgProofs PgQueryProofs PgOps PgHist PgConc PgConcSpec PgConcProofs PgConcHist.

(** * Conflicts, said of rows *)

Definition blank (r : row) : row := put_errors [] r.
Lemma blank_conflict uq ex w r : pg_conflict uq ex w (blank r) = pg_conflict uq ex w r.
Proof. reflexivity. Qed.
Definition blank_job (s : status) (r : row) : job :=
  {| j_id := r_id r; j_status := s; j_executor := r_executor r; j_data := r_data r; j_metadata := r_metadata r;
     j_attempt := r_attempt r; j_max_attempts := r_max_attempts r; j_priority := r_priority r; j_tags := r_tags r;
     j_errors := []; j_inserted_at := r_inserted_at r; j_scheduled_at := r_scheduled_at r; j_attempted_at := r_attempted_at r;
     j_completed_at := r_completed_at r; j_cancelled_at := r_cancelled_at r; j_discarded_at := r_discarded_at r |}.
Lemma blank_represents s r : spelled s (r_status r) -> represents (blank r) (blank_job s r).
Proof. intro H. unfold represents. cbn. auto 20 using Forall2_nil. Qed.

Lemma clashes_iff e uq : eq_criteria e = Some uq -> kept_window e -> kept_request e ->
  exists w, pg_window uq (eq_scheduled_at e) = Some w /\ pg_window_ok uq (eq_executor e) w = true
    /\ forall r, pg_conflict uq (eq_executor e) w r = true <-> clashes e r.
Proof.
  intros Huq Hw He. destruct (window_kept e uq Huq Hw (fun _ => proj1 He)) as [w [H1 [H2 H3]]]. exists w. split; [exact H1|]. split; [exact H2|].
  intro r. rewrite <- blank_conflict. split.
  - intro H. assert (Hs : exists s, spelled s (r_status r)).
    { unfold pg_conflict in H. rewrite !andb_true_iff in H. destruct H as [[[H _] _] _]. apply existsb_exists in H.
      destruct H as [x [Hx E]]. apply in_map_iff in Hx. destruct Hx as [s [<- _]]. apply String.eqb_eq in E. cbn in E.
      exists s. apply spelled_label. exact E. }
    destruct Hs as [s Hs]. apply (H3 _ _ (blank_represents s r Hs)) in H.
    destruct H as [uq' [Eq [K1 [K2 [K3 K4]]]]]. exists uq', s. cbn in *. auto 10.
  - intros [uq' [s [Eq [K1 [K2 [K3 [Hs K4]]]]]]]. apply (H3 _ _ (blank_represents s r Hs)). exists uq'. cbn. auto.
Qed.

Section Uniq.
Variable ident : option Z -> option string -> list status -> Z.

(** * The advisory lock is exclusive *)

Lemma advisory_held_false cs k : advisory_held ident cs k = false ->
  forall i c, nth_error cs i = Some c -> advisory ident c <> Some k.
Proof.
  unfold advisory_held. intros H i c Hc E. apply nth_error_In in Hc.
  assert (Ht : existsb (fun c => match advisory ident c with Some k' => k' =? k | None => false end) cs = true).
  { apply existsb_exists. exists c. split; [exact Hc|]. rewrite E. apply Z.eqb_refl. }
  congruence.
Qed.

Definition apart (s : qstate) : Prop :=
  forall i k c d key, nth_error (q_calls s) i = Some c -> nth_error (q_calls s) k = Some d ->
    advisory ident c = Some key -> advisory ident d = Some key -> i = k.

Lemma draw_pc now t e t' pc' : draw now t e = (t', pc') -> (exists r, pc' = QDone r) \/ exists n id, pc' = QDrawn n id.
Proof.
  unfold draw. destruct (negb _); [intro H; injection H as <- <-; eauto|].
  destruct (_ <? _); intro H; injection H as <- <-; eauto.
Qed.

Lemma action_advisory i now pick cs t c t' pc' ev : action ident i now pick cs t c = (t', pc', ev) ->
  advisory ident (mk_qcall (qc_op c) pc') = None
  \/ advisory ident (mk_qcall (qc_op c) pc') = advisory ident c
  \/ exists k, advisory ident (mk_qcall (qc_op c) pc') = Some k /\ advisory_held ident cs k = false.
Proof.
  destruct c as [o pc]. cbn [qc_op]. destruct o; try (left; reflexivity).
  unfold action, advisory. cbn [qc_op qc_pc]. destruct (eq_criteria e) as [uq|]; [|intros _; left; destruct pc'; reflexivity].
  unfold unique_action. destruct pc; intro H.
  - injection H as <- <- <-. auto.
  - injection H as <- <- <-. auto.
  - injection H as <- <- <-. auto.
  - injection H as <- <- <-. destruct (advisory_held ident cs (request_ident ident uq e)) eqn:E; [auto|]. right. right. eauto.
  - destruct (pg_window uq (eq_scheduled_at e)) as [w|]; [|injection H as <- <- <-; auto].
    destruct (negb _); [injection H as <- <- <-; auto|].
    destruct (nth_error _ _) as [r|]; injection H as <- <- <-; [|auto].
    destruct (uc_on_conflict uq) as [|rp]; [auto|]. destruct (existsb _ _); auto.
  - destruct (draw now0 t e) as [t1 pc1] eqn:E. injection H as <- <- <-. destruct (draw_pc _ _ _ _ _ E) as [[r ->]|[n [id ->]]]; auto.
  - destruct (find_row id (t_rows t)); [injection H as <- <- <-; destruct (row_locked cs id); auto|].
    destruct (uc_on_conflict uq) as [|rp]; [injection H as <- <- <-; auto|]. unfold commit_replace in H.
    destruct (pg_replace rp e id t); injection H as <- <- <-; auto.
  - destruct (uc_on_conflict uq) as [|rp]; [injection H as <- <- <-; auto|]. unfold commit_replace in H.
    destruct (pg_replace rp e id t); injection H as <- <- <-; auto.
  - unfold commit_insert in H. injection H as <- <- <-. auto.
  - injection H as <- <- <-. auto.
  - injection H as <- <- <-. auto.
Qed.

Lemma apart_step s l : apart s -> apart (fst (qstep ident s l)).
Proof.
  intro Ha. destruct l as [o|i now pick|i er].
  - cbn [qstep fst]. intros i k c d key Hi Hk Ac Ad. cbn [q_calls] in *.
    assert (Hx : forall j x, nth_error (q_calls s ++ [mk_qcall o QStart]) j = Some x -> advisory ident x = Some key -> nth_error (q_calls s) j = Some x).
    { intros j x Hj Hx. apply nth_snoc in Hj. destruct Hj as [Hj| ->]; [exact Hj|]. destruct o; discriminate. }
    apply (Ha i k c d key); auto.
  - destruct (nth_error (q_calls s) i) as [c|] eqn:Hc; [|cbn [qstep]; rewrite Hc; exact Ha].
    destruct (qstep_run ident s i now pick c Hc) as [t' [pc' [ev [Hact ->]]]]. cbn [fst].
    pose proof (action_advisory _ _ _ _ _ _ _ _ _ Hact) as Hadv.
    assert (Hi : forall j d key, j <> i -> nth_error (q_calls s) j = Some d -> advisory ident d = Some key ->
                 advisory ident (mk_qcall (qc_op c) pc') = Some key -> False).
    { intros j d key Hne Hj Ad Ac. destruct Hadv as [H|[H|[k [H Hh]]]].
      - congruence.
      - rewrite H in Ac. apply Hne. eapply Ha; eauto.
      - assert (k = key) as -> by congruence. exact (advisory_held_false _ _ Hh j d Hj Ad). }
    intros j k x d key Hj Hk Ax Ad. cbn [q_calls] in *. apply nth_set in Hj. apply nth_set in Hk.
    destruct Hj as [[-> [-> _]]|[Hnj Hj]], Hk as [[-> [-> _]]|[Hnk Hk]]; [reflexivity| | |eapply Ha; eauto].
    + exfalso. eapply Hi; eauto.
    + exfalso. eapply Hi; eauto.
  - cbn [qstep]. destruct (nth_error (q_calls s) i) as [c|] eqn:Hc; [|exact Ha]. cbn [fst]. destruct (gives_up_done er c) as [r ->].
    assert (Hr : advisory ident (mk_qcall (qc_op c) (QDone r)) = None) by (unfold advisory; cbn [qc_op qc_pc]; destruct (qc_op c); reflexivity).
    intros j k x d key Hj Hk Ax Ad. cbn [q_calls] in *. apply nth_set in Hj. apply nth_set in Hk.
    destruct Hj as [[-> [-> _]]|[Hnj Hj]]; [congruence|]. destruct Hk as [[-> [-> _]]|[Hnk Hk]]; [congruence|]. eapply Ha; eauto.
Qed.
Lemma apart_run ls : forall s, apart s -> apart (qrun ident s ls).
Proof. induction ls as [|l ls IH]; intros s H; cbn [qrun]; [exact H|]. apply IH, apart_step, H. Qed.
Lemma apart_opened t : apart (opened t).
Proof. intros [|i] k c d key H; discriminate. Qed.

(** * Operations stay what they are *)

Lemma op_step s l i c : nth_error (q_calls s) i = Some c ->
  exists pc, nth_error (q_calls (fst (qstep ident s l))) i = Some (mk_qcall (qc_op c) pc).
Proof.
  intro H. destruct l as [o|k now pick|k er].
  - cbn. exists (qc_pc c). rewrite nth_error_app1; [|apply nth_error_Some; congruence]. destruct c; exact H.
  - destruct (nth_error (q_calls s) k) as [d|] eqn:Hk; [|cbn [qstep]; rewrite Hk; exists (qc_pc c); destruct c; exact H].
    destruct (qstep_run ident s k now pick d Hk) as [t' [pc' [ev [_ ->]]]]. cbn [fst q_calls].
    rewrite set_nth_nth. destruct (Nat.eqb_spec k i) as [->|Hn].
    + rewrite H. assert (d = c) as -> by congruence. eauto.
    + exists (qc_pc c). destruct c; exact H.
  - cbn [qstep]. destruct (nth_error (q_calls s) k) as [d|] eqn:Hk; [|exists (qc_pc c); destruct c; exact H].
    cbn [fst q_calls]. rewrite set_nth_nth. destruct (Nat.eqb_spec k i) as [->|Hn].
    + rewrite H. assert (d = c) as -> by congruence. eauto.
    + exists (qc_pc c). destruct c; exact H.
Qed.
Lemma op_run ls : forall s i c, nth_error (q_calls s) i = Some c ->
  exists pc, nth_error (q_calls (qrun ident s ls)) i = Some (mk_qcall (qc_op c) pc).
Proof.
  induction ls as [|l ls IH]; intros s i c H; cbn [qrun]; [exists (qc_pc c); destruct c; exact H|].
  destruct (op_step s l i c H) as [pc Hp]. destruct (IH _ i _ Hp) as [pc' Hq]. exists pc'. exact Hq.
Qed.

(** * While a conflicting row is there, nobody who has yet to look inserts *)

(** Call [j], if it is one of [e], has not passed its search. *)
Definition waiting (j : nat) (e : enqueuable) (s : qstate) : Prop :=
  forall c, nth_error (q_calls s) j = Some c -> qc_op c = OpEnqueue e ->
    match qc_pc c with QFree _ | QDrawn _ _ => False | _ => True end.

Lemma nth_mod_some {A} (l : list A) n : l <> [] -> exists x, nth_error l (Nat.modulo n (length l)) = Some x /\ In x l.
Proof.
  intro H. destruct (nth_error l (n mod length l)) as [x|] eqn:E; [exists x; split; [reflexivity|eapply nth_error_In; exact E]|].
  apply nth_error_None in E. assert (length l <> 0)%nat by (destruct l; [congruence|discriminate]).
  pose proof (Nat.mod_upper_bound n (length l)). lia.
Qed.
Lemma nth_nil {A} n : nth_error (@nil A) n = None.
Proof. destruct n; reflexivity. Qed.
Lemma nth_mod_in {A} (l : list A) n x : nth_error l (Nat.modulo n (length l)) = Some x -> In x l.
Proof. apply nth_error_In. Qed.

Lemma waiting_step s l j e uq : qinv s -> eq_criteria e = Some uq -> kept_window e -> kept_request e ->
  waiting j e s -> (exists r, In r (t_rows (q_tbl s)) /\ clashes e r) ->
  waiting j e (fst (qstep ident s l)) /\
  forall r, In (QvInsert j r) (snd (qstep ident s l)) -> forall c, nth_error (q_calls s) j = Some c -> qc_op c = OpEnqueue e -> False.
Proof.
  intros Hinv Huq Hw He Hwait [r [Hin Hcl]]. destruct l as [o|i now pick|i er].
  - split; [|intros x []]. intros c Hc Ho. cbn [qstep fst q_calls] in Hc. apply nth_snoc in Hc. destruct Hc as [Hc| ->]; [exact (Hwait c Hc Ho)|exact I].
  - destruct (nth_error (q_calls s) i) as [c|] eqn:Hc.
    2: { cbn [qstep]; rewrite Hc; split; [exact Hwait|intros x []]. }
    destruct (qstep_run ident s i now pick c Hc) as [t' [pc' [ev [Hact Es]]]]. rewrite Es. cbn [fst snd].
    destruct (action_effect ident i now pick _ _ c t' pc' ev (iv_nodup s Hinv) (iv_stands s Hinv i c Hc) Hact) as [Heff _].
    split.
    + intros d Hd Ho. cbn [q_calls] in Hd. apply nth_set in Hd. destruct Hd as [[-> [-> _]]|[_ Hd]]; [|exact (Hwait d Hd Ho)].
      cbn [qc_op qc_pc] in *. specialize (Hwait c Hc Ho). destruct c as [o pc]. cbn [qc_op qc_pc] in *. subst o.
      unfold action in Hact. cbn [qc_op qc_pc] in Hact. rewrite Huq in Hact. unfold unique_action in Hact.
      destruct pc; try contradiction; try (injection Hact as <- <- <-; exact I).
      * injection Hact as <- <- <-. destruct (advisory_held _ _ _); exact I.
      * destruct (clashes_iff e uq Huq Hw He) as [w [E1 [E2 E3]]]. rewrite E1, E2 in Hact. cbn [negb] in Hact. cbv zeta in Hact.
        destruct (nth_mod_some (filter (pg_conflict uq (eq_executor e) w) (t_rows (q_tbl s))) pick) as [x [Ex _]].
        { intro E. apply E3 in Hcl. assert (Hf : In r (filter (pg_conflict uq (eq_executor e) w) (t_rows (q_tbl s)))) by (apply filter_In; auto).
          rewrite E in Hf. destruct Hf. }
        rewrite Ex in Hact. injection Hact as <- <- <-. destruct (uc_on_conflict uq); [exact I|]. destruct (existsb _ _); exact I.
      * destruct (find_row id _); [injection Hact as <- <- <-; destruct (row_locked _ _); exact I|].
        destruct (uc_on_conflict uq); [injection Hact as <- <- <-; exact I|]. unfold commit_replace in Hact.
        destruct (pg_replace _ _ _ _); injection Hact as <- <- <-; exact I.
      * destruct (uc_on_conflict uq); [injection Hact as <- <- <-; exact I|]. unfold commit_replace in Hact.
        destruct (pg_replace _ _ _ _); injection Hact as <- <- <-; exact I.
    + intros x Hx d Hd Ho. inversion Heff as [| |now0 id0 key0 e0 Eo Epc E2 E3 E4| |]; subst; try (destruct Hx; fail);
        destruct Hx as [Hx|[]]; try discriminate Hx. injection Hx as -> _. specialize (Hwait d Hd Ho).
      assert (d = c) as -> by congruence. rewrite Epc in Hwait. exact Hwait.
  - cbn [qstep]. destruct (nth_error (q_calls s) i) as [c|] eqn:Hc; [|split; [exact Hwait|intros x []]]. cbn [fst snd].
    destruct (gives_up_done er c) as [res ->].
    split; [|intros x []]. intros d Hd Ho. cbn [q_calls] in Hd. apply nth_set in Hd. destruct Hd as [[-> [-> _]]|[_ Hd]]; [exact I|exact (Hwait d Hd Ho)].
Qed.

Lemma clash_stays s l e uq id r : qinv s -> eq_criteria e = Some uq -> kept_window e -> kept_request e ->
  find_row id (t_rows (q_tbl s)) = Some r -> clashes e r ->
  (exists ev, In ev (snd (qstep ident s l)) /\ spoils (clashes e) id ev)
  \/ exists r', find_row id (t_rows (q_tbl (fst (qstep ident s l)))) = Some r' /\ clashes e r'.
Proof.
  intros Hinv Huq Hw He Hf Hcl. pose proof (step_fate ident id s l Hinv) as Hfate.
  assert (Hid : r_id r = id) by (apply find_row_some in Hf; tauto).
  destruct (qstep ident s l) as [s' evs]. cbn [fst snd] in *.
  destruct Hfate as [evs Hsame H1 H2 H3|i x now key e0 Hn Hsm Hr|i c b a res Hc Hb Ha Hida Hch Hpc Hl|i rows Hno Hx].
  - right. exists r. rewrite Hsame. auto.
  - congruence.
  - destruct (clashes_iff e uq Huq Hw He) as [w [_ [_ E3]]].
    destruct (pg_conflict uq (eq_executor e) w a) eqn:E.
    + right. exists a. split; [exact Ha|]. apply E3, E.
    + left. eexists. split; [left; reflexivity|]. cbn. assert (b = r) as -> by congruence. split; [exact Hid|].
      intro H. apply E3 in H. congruence.
  - left. eexists. split; [left; reflexivity|exact Hx].
Qed.

Lemma waiting_run ls : forall s j e uq id r c0, qinv s -> eq_criteria e = Some uq -> kept_window e -> kept_request e ->
  waiting j e s -> find_row id (t_rows (q_tbl s)) = Some r -> clashes e r ->
  nth_error (q_calls (qrun ident s ls)) j = Some c0 -> qc_op c0 = OpEnqueue e ->
  forall A x B, qtrace ident s ls = A ++ QvInsert j x :: B -> exists ev, In ev A /\ spoils (clashes e) id ev.
Proof.
  induction ls as [|l ls IH]; intros s j e uq id r c0 Hinv Huq Hw He Hwait Hf Hcl Hc0 Ho A x B Htr; [destruct A; discriminate|].
  cbn [qtrace qrun] in *. assert (Hin : In r (t_rows (q_tbl s))) by (apply find_row_some in Hf; tauto).
  destruct (waiting_step s l j e uq Hinv Huq Hw He Hwait (ex_intro _ r (Logic.conj Hin Hcl))) as [Hw' Hno].
  assert (Hno' : forall r, ~ In (QvInsert j r) (snd (qstep ident s l))).
  { intros r0 Hr0. destruct (step_event ident s l _ Hinv Hr0) as [i [now [pick [c [t' [pc' [-> [Hc [Heff _]]]]]]]]].
    inversion Heff as [| |now0 id0 key0 e0 Eo Epc E2 E3 E4| |]; subst. 
    refine (Hno _ Hr0 c Hc _). destruct (op_step s (QRun j now pick) j c Hc) as [pc1 Hp]. destruct (op_run ls _ j _ Hp) as [pc2 Hq].
    rewrite Hc0 in Hq. injection Hq as ->. exact Ho. }
  assert (Hpre : exists A', A = snd (qstep ident s l) ++ A' /\ qtrace ident (fst (qstep ident s l)) ls = A' ++ QvInsert j x :: B).
  { clear -Htr Hno'. revert A Htr. induction (snd (qstep ident s l)) as [|ev evs IHe]; intros A Htr; [exists A; auto|].
    destruct A as [|a A]; cbn [app] in Htr.
    - injection Htr as -> _. destruct (Hno' x). left. reflexivity.
    - injection Htr as -> Htr. destruct (IHe (fun r H => Hno' r (or_intror H)) A Htr) as [A' [-> H]]. exists A'. auto. }
  destruct Hpre as [A' [-> Htr']].
  destruct (clash_stays s l e uq id r Hinv Huq Hw He Hf Hcl) as [[ev [H1 H2]]|[r' [Hf' Hcl']]].
  - exists ev. split; [apply in_or_app; left; exact H1|exact H2].
  - destruct (IH _ j e uq id r' c0 (step_inv ident s l Hinv) Huq Hw He Hw' Hf' Hcl' Hc0 Ho A' x B Htr') as [ev [H1 H2]].
    exists ev. split; [apply in_or_app; right; exact H1|exact H2].
Qed.

(** Two inserts under the same identifier: in between, the first row stopped conflicting. *)
Lemma no_two_inserts t ls i j e1 e2 uq1 uq2 r1 r2 A B C c1 c2 : sound_table t ->
  qtrace ident (opened t) ls = A ++ QvInsert i r1 :: B ++ QvInsert j r2 :: C ->
  nth_error (q_calls (qrun ident (opened t) ls)) i = Some c1 -> qc_op c1 = OpEnqueue e1 ->
  nth_error (q_calls (qrun ident (opened t) ls)) j = Some c2 -> qc_op c2 = OpEnqueue e2 ->
  eq_criteria e1 = Some uq1 -> eq_criteria e2 = Some uq2 ->
  request_ident ident uq1 e1 = request_ident ident uq2 e2 ->
  kept_window e2 -> kept_request e2 -> clashes e2 r1 ->
  exists ev, In ev B /\ spoils (clashes e2) (r_id r1) ev.
Proof.
  intros Ht E Hc1 Ho1 Hc2 Ho2 Hq1 Hq2 Hid Hw He Hcl. apply inv_opened in Ht.
  destruct (trace_split ident ls _ A _ _ E Ht) as [l1 [l [l2 [-> [H1 [H2 H3]]]]]].
  set (s := qrun ident (opened t) l1) in *. assert (Hs : qinv s) by (apply run_inv; exact Ht).
  assert (Hap : apart s) by (apply apart_run, apart_opened).
  rewrite qrun_app in Hc1, Hc2. cbn [qrun] in Hc1, Hc2. fold s in Hc1, Hc2.
  assert (Hev : In (QvInsert i r1) (snd (qstep ident s l))) by (rewrite H2; left; reflexivity).
  destruct (step_event ident s l _ Hs Hev) as [i' [now [pick [c [t' [pc' [-> [Hc [Heff [_ Ef]]]]]]]]]].
  inversion Heff as [| |now0 id0 key0 e0 Eo Epc E2 E3 E4| |]; subst.
  assert (Heq : e0 = e1).
  { destruct (op_step s (QRun i now pick) i c Hc) as [p1 Hp]. destruct (op_run l2 _ i _ Hp) as [p2 Hq]. rewrite Hc1 in Hq.
    injection Hq as ->. cbn [qc_op] in Ho1. congruence. }
  subst e0. pose proof (step_inv ident s (QRun i now pick) Hs) as Hs'.
  eapply (waiting_run l2 _ j e2 uq2 (r_id (new_row now0 id0 key0 e1)) (new_row now0 id0 key0 e1) c2 Hs' Hq2 Hw He); try eassumption.
  - intros d Hd Hod. rewrite Ef in Hd. cbn [q_calls] in Hd. apply nth_set in Hd. destruct Hd as [[-> [-> _]]|[Hne Hd]]; [exact I|].
    assert (Hno : advisory ident d <> Some (request_ident ident uq1 e1)).
    { intro Hadv. apply Hne. apply (Hap j i d c (request_ident ident uq1 e1) Hd Hc Hadv).
      unfold advisory. rewrite Eo, Epc, Hq1. reflexivity. }
    unfold advisory in Hno. rewrite Hod, Hq2 in Hno. destruct (qc_pc d); try exact I; apply Hno; rewrite Hid; reflexivity.
  - rewrite Ef. cbn [q_tbl t_rows]. pose proof (iv_nodup _ Hs') as Hn. rewrite Ef in Hn. cbn [q_tbl t_rows] in Hn.
    apply find_row_in; [exact Hn|]. apply in_or_app. right. left. reflexivity.
Qed.
(** * Callers of one unique job *)

Section Family.
Variables (e0 : enqueuable) (uq : criteria).
Hypothesis Huq : eq_criteria e0 = Some uq.
Hypothesis Hkey : uc_key uq = None.
Hypothesis Hst : In Scheduled (uc_statuses uq).
Hypothesis Hdur : forall d, uc_duration uq = Some d -> 0 <= d.
Hypothesis Hwin : kept_window e0.

Definition kin (e : enqueuable) : Prop := alike e0 e /\ kept_request e.
Definition all_kin (s : qstate) : Prop :=
  forall i c, nth_error (q_calls s) i = Some c -> exists e, qc_op c = OpEnqueue e /\ kin e.

Lemma kin_clashes e r : kin e -> clashes e r <-> clashes e0 r.
Proof. intros [[H1 [H2 H3]] _]. unfold clashes. rewrite H1, H2, H3. tauto. Qed.
Lemma kin_criteria e : kin e -> eq_criteria e = Some uq.
Proof. intros [[H _] _]. congruence. Qed.
Lemma kin_window e : kin e -> kept_window e.
Proof. intros [[H1 [H2 H3]] _] u d. rewrite H1, H3. apply Hwin. Qed.
Lemma kin_ident e : kin e -> request_ident ident uq e = request_ident ident uq e0.
Proof. intros [[_ [H2 _]] _]. unfold request_ident. rewrite H2. reflexivity. Qed.
Lemma kin_search e : kin e -> exists w, pg_window uq (eq_scheduled_at e) = Some w /\ pg_window_ok uq (eq_executor e) w = true
    /\ forall r, pg_conflict uq (eq_executor e) w r = true <-> clashes e0 r.
Proof.
  intro H. destruct (clashes_iff e uq (kin_criteria e H) (kin_window e H) (proj2 H)) as [w [H1 [H2 H3]]]. exists w.
  split; [exact H1|]. split; [exact H2|]. intro r. rewrite H3. apply kin_clashes, H.
Qed.
Lemma new_clashes e now id key : kin e -> clashes e0 (new_row now id key e).
Proof.
  intros [[H1 [H2 H3]] [_ [_ [_ [Hk _]]]]]. exists uq, Scheduled. split; [exact Huq|]. cbn [new_row r_uniqueness_key r_executor r_status r_scheduled_at].
  split; [intros k E; congruence|]. split; [congruence|]. split; [exact Hst|]. split; [constructor|].
  intros d Hd. destruct (pg_time_kept _ Hk) as [-> _]. rewrite H3. specialize (Hdur d Hd). lia.
Qed.
Lemma assigned_schedule rp e r :
  let r' := fold_left (fun r1 (a : bool * (row -> row)) => snd a r1) (pg_assignments rp e) r in
  r_scheduled_at r' = r_scheduled_at r \/ r_scheduled_at r' = pg_time (eq_scheduled_at e).
Proof.
  cbv zeta. unfold pg_assignments.
  destruct (rp_scheduled_at rp), (rp_data rp), (rp_metadata rp), (rp_priority rp), (rp_max_attempts rp); cbn [app fold_left snd]; auto.
Qed.
Lemma assigned_clashes rp e r : kin e -> clashes e0 r ->
  clashes e0 (fold_left (fun r1 (a : bool * (row -> row)) => snd a r1) (pg_assignments rp e) r).
Proof.
  intros [[H1 [H2 H3]] [_ [_ [_ [Hk _]]]]] [uq' [st [E [K1 [K2 [K3 [K4 K5]]]]]]]. assert (uq' = uq) as -> by congruence.
  destruct (assignments_keep rp e r) as [_ [A2 [_ [_ [A5 [_ [A7 _]]]]]]]. pose proof (assigned_schedule rp e r) as A9. cbv zeta in A9.
  exists uq, st. rewrite A2, A5, A7. split; [exact E|]. split; [exact K1|]. split; [exact K2|]. split; [exact K3|]. split; [exact K4|].
  intros d Hd. destruct A9 as [->| ->]; [auto|]. destruct (pg_time_kept _ Hk) as [-> _]. rewrite H3. specialize (Hdur d Hd). lia.
Qed.

(** Before the insert, and after it. *)
Definition before_insert (s : qstate) : Prop :=
  (forall r, In r (t_rows (q_tbl s)) -> ~ clashes e0 r)
  /\ forall i c, nth_error (q_calls s) i = Some c ->
       match qc_pc c with QFound _ _ | QReplacing _ _ | QDone (RId (Ok _)) => False | _ => True end.
Definition after_insert (id : Z) (s : qstate) : Prop :=
  (exists r, find_row id (t_rows (q_tbl s)) = Some r /\ clashes e0 r)
  /\ (forall r, In r (t_rows (q_tbl s)) -> clashes e0 r -> r_id r = id)
  /\ forall i c, nth_error (q_calls s) i = Some c ->
       match qc_pc c with
       | QFree _ | QDrawn _ _ => False
       | QFound _ id' | QReplacing _ id' | QDone (RId (Ok id')) => id' = id
       | _ => True
       end.

Lemma kin_step s l : all_kin s -> (forall o, l = QCall o -> exists e, o = OpEnqueue e /\ kin e) -> all_kin (fst (qstep ident s l)).
Proof.
  intros Hk Hl i c Hc. destruct (nth_error (q_calls s) i) as [d|] eqn:Hd.
  - destruct (op_step s l i d Hd) as [pc Hp]. rewrite Hp in Hc. injection Hc as <-. exact (Hk i d Hd).
  - destruct l as [o|k now pick|k er].
    + cbn [qstep fst q_calls] in Hc. apply nth_snoc in Hc. destruct Hc as [Hc| ->]; [congruence|]. destruct (Hl o eq_refl) as [e [-> H]].
      exists e. auto.
    + exfalso. destruct (nth_error (q_calls s) k) as [x|] eqn:Hx; [|cbn [qstep] in Hc; rewrite Hx in Hc; cbn [fst] in Hc; congruence].
      destruct (qstep_run ident s k now pick x Hx) as [t' [pc' [ev [_ E]]]]. rewrite E in Hc. cbn [fst q_calls] in Hc.
      apply nth_set in Hc. destruct Hc as [[-> _]|[_ Hc]]; congruence.
    + exfalso. cbn [qstep] in Hc. destruct (nth_error (q_calls s) k) as [x|] eqn:Hx; [|cbn [fst] in Hc; congruence]. cbn [fst q_calls] in Hc.
      apply nth_set in Hc. destruct Hc as [[-> _]|[_ Hc]]; congruence.
Qed.

Lemma filter_none {A} (f : A -> bool) l : (forall x, In x l -> f x = false) -> filter f l = [].
Proof. induction l as [|x l IH]; intro H; [reflexivity|]. cbn. rewrite (H x (or_introl eq_refl)). apply IH. intros y Hy. apply H. right. exact Hy. Qed.

Lemma before_step s l : qinv s -> apart s -> all_kin s -> before_insert s ->
  (before_insert (fst (qstep ident s l)) /\ inserts (snd (qstep ident s l)) = [])
  \/ exists r, inserts (snd (qstep ident s l)) = [r] /\ after_insert (r_id r) (fst (qstep ident s l)).
Proof.
  intros Hinv Hap Hk [Hno Hpc]. destruct l as [o|i now pick|i er].
  - left. cbn [qstep fst snd q_tbl q_calls]. split; [|reflexivity]. split; [exact Hno|]. intros i c Hc. cbn [q_calls] in Hc. apply nth_snoc in Hc.
    destruct Hc as [Hc| ->]; [exact (Hpc i c Hc)|exact I].
  - destruct (nth_error (q_calls s) i) as [c|] eqn:Hc; [|left; cbn [qstep]; rewrite Hc; split; [split; assumption|reflexivity]].
    destruct (qstep_run ident s i now pick c Hc) as [t' [pc' [ev [Hact ->]]]]. cbn [fst snd].
    destruct (Hk i c Hc) as [e [Ho He]]. pose proof (Hpc i c Hc) as Hp. destruct c as [o pc]. cbn [qc_op qc_pc] in *. subst o.
    unfold action in Hact. cbn [qc_op qc_pc] in Hact. rewrite (kin_criteria e He) in Hact.
    assert (Hleft : forall pc1, match pc1 with QFound _ _ | QReplacing _ _ | QDone (RId (Ok _)) => False | _ => True end ->
      forall t1, t_rows t1 = t_rows (q_tbl s) -> before_insert (mk_q t1 (set_nth i (mk_qcall (OpEnqueue e) pc1) (q_calls s)))).
    { intros pc1 Hpc1 t1 Et. split; [cbn [q_tbl]; rewrite Et; exact Hno|]. intros k d Hd. cbn [q_calls] in Hd. apply nth_set in Hd.
      destruct Hd as [[_ [-> _]]|[_ Hd]]; [exact Hpc1|exact (Hpc k d Hd)]. }
    unfold unique_action in Hact. destruct pc; try contradiction; try (injection Hact as <- <- <-; left; split; [apply Hleft; [exact I|reflexivity]|reflexivity]).
    + injection Hact as <- <- <-. left. split; [|reflexivity]. apply Hleft; [|reflexivity]. destruct (advisory_held _ _ _); exact I.
    + destruct (kin_search e He) as [w [E1 [E2 E3]]]. rewrite E1, E2 in Hact. cbn [negb] in Hact. cbv zeta in Hact.
      rewrite (filter_none (pg_conflict uq (eq_executor e) w) (t_rows (q_tbl s))) in Hact.
      * rewrite nth_nil in Hact. injection Hact as <- <- <-. left. split; [|reflexivity]. apply Hleft; [exact I|reflexivity].
      * intros x Hx. apply not_true_is_false. intro H. apply E3 in H. exact (Hno x Hx H).
    + unfold draw in Hact. destruct (negb _); [injection Hact as <- <- <-; left; split; [apply Hleft; [exact I|reflexivity]|reflexivity]|].
      destruct (_ <? _); injection Hact as <- <- <-; left; (split; [apply Hleft; [exact I|reflexivity]|reflexivity]).
    + unfold commit_insert in Hact. injection Hact as <- <- <-. right. eexists. split; [reflexivity|]. cbn [new_row r_id].
      assert (Hnew : ~ In id (map r_id (t_rows (q_tbl s)))).
      { apply (iv_drawn s Hinv i _ id Hc). exists now0. reflexivity. }
      split; [|split].
      * exists (new_row now0 id (Some (request_ident ident uq e)) e). split; [|apply new_clashes, He]. cbn [q_tbl t_rows].
        apply (find_row_in _ (new_row now0 id (Some (request_ident ident uq e)) e)).
        -- rewrite map_app. cbn [map new_row r_id]. apply Permutation_NoDup with (l := id :: map r_id (t_rows (q_tbl s))); [apply Permutation_cons_append|].
           constructor; [exact Hnew|apply (iv_nodup s Hinv)].
        -- apply in_or_app. right. left. reflexivity.
      * cbn [q_tbl t_rows]. intros r Hr Hcl. apply in_app_or in Hr. destruct Hr as [Hr|[<-|[]]]; [destruct (Hno r Hr Hcl)|reflexivity].
      * intros k d Hd. cbn [q_calls] in Hd. apply nth_set in Hd. destruct Hd as [[_ [-> _]]|[Hne Hd]]; [reflexivity|].
        pose proof (Hpc k d Hd) as Hq. destruct (Hk k d Hd) as [e' [Ho' He']].
        assert (Hadv : advisory ident d <> Some (request_ident ident uq e0)).
        { intro H. apply Hne. apply (Hap k i d _ _ Hd Hc H). unfold advisory. cbn [qc_op qc_pc]. rewrite (kin_criteria e He), (kin_ident e He). reflexivity. }
        unfold advisory in Hadv. rewrite Ho', (kin_criteria e' He'), (kin_ident e' He') in Hadv.
        destruct (qc_pc d) as [| | | | | | | | | |[]]; try contradiction; try exact I; try (apply Hadv; reflexivity).
        destruct r; [contradiction|exact I|exact I].
    + injection Hact as <- <- <-. left. split; [|reflexivity]. apply Hleft; [exact Hp|reflexivity].
  - left. cbn [qstep]. destruct (nth_error (q_calls s) i) as [c|] eqn:Hc; [|split; [split; assumption|reflexivity]]. cbn [fst snd].
    split; [|reflexivity]. split; [exact Hno|]. intros k d Hd. cbn [q_calls] in Hd. apply nth_set in Hd. destruct Hd as [[-> [-> _]]|[_ Hd]]; [|exact (Hpc k d Hd)].
    cbn [qc_pc]. specialize (Hpc i c Hc). unfold gives_up. destruct (Hk i c Hc) as [e [-> _]]. cbn [failed]. exact I.
Qed.

Lemma after_step s l id : qinv s -> all_kin s -> after_insert id s ->
  after_insert id (fst (qstep ident s l)) /\ inserts (snd (qstep ident s l)) = [].
Proof.
  intros Hinv Hk [[r0 [Hf0 Hcl0]] [Hone Hpc]]. assert (Hid0 : r_id r0 = id) by (apply find_row_some in Hf0; tauto).
  destruct l as [o|i now pick|i er].
  - cbn [qstep fst snd q_tbl q_calls]. split; [|reflexivity]. split; [eauto|]. split; [exact Hone|]. intros i c Hc. cbn [q_calls] in Hc. apply nth_snoc in Hc.
    destruct Hc as [Hc| ->]; [exact (Hpc i c Hc)|exact I].
  - destruct (nth_error (q_calls s) i) as [c|] eqn:Hc; [|cbn [qstep]; rewrite Hc; split; [split; [eauto|split; assumption]|reflexivity]].
    destruct (qstep_run ident s i now pick c Hc) as [t' [pc' [ev [Hact ->]]]]. cbn [fst snd].
    destruct (Hk i c Hc) as [e [Ho He]]. pose proof (Hpc i c Hc) as Hp. destruct c as [o pc]. cbn [qc_op qc_pc] in *. subst o.
    unfold action in Hact. cbn [qc_op qc_pc] in Hact. rewrite (kin_criteria e He) in Hact.
    assert (Hleft : forall pc1, match pc1 with
       | QFree _ | QDrawn _ _ => False
       | QFound _ id' | QReplacing _ id' | QDone (RId (Ok id')) => id' = id
       | _ => True
       end -> after_insert id (mk_q (q_tbl s) (set_nth i (mk_qcall (OpEnqueue e) pc1) (q_calls s)))).
    { intros pc1 Hpc1. split; [eauto|]. split; [exact Hone|]. intros k d Hd. cbn [q_calls] in Hd. apply nth_set in Hd.
      destruct Hd as [[_ [-> _]]|[_ Hd]]; [exact Hpc1|exact (Hpc k d Hd)]. }
    assert (Hrepl : forall rp t1 pc1 ev1, commit_replace i rp e id (q_tbl s) = (t1, pc1, ev1) ->
       after_insert id (mk_q t1 (set_nth i (mk_qcall (OpEnqueue e) pc1) (q_calls s))) /\ inserts ev1 = []).
    { intros rp t1 pc1 ev1 Hcr. unfold commit_replace in Hcr.
      destruct (pg_replace rp e id (q_tbl s)) as [t2|] eqn:Er; [|injection Hcr as <- <- <-; split; [apply Hleft; exact I|reflexivity]].
      injection Hcr as <- <- <-. split; [|destruct (find_row id (t_rows (q_tbl s))), (find_row id (t_rows t2)); reflexivity].
      unfold pg_replace in Er. destruct (pg_assignments rp e) as [|a0 al] eqn:Ea; [discriminate|]. rewrite <- Ea in Er.
      destruct (forallb fst (pg_assignments rp e)); [|discriminate].
      set (f := fun r1 => Some (fold_left (fun r2 (a0 : bool * (row -> row)) => snd a0 r2) (pg_assignments rp e) r1)) in Er.
      pose proof (update_rows_spec id f (t_rows (q_tbl s)) (iv_nodup s Hinv)) as Hu.
      destruct (update_rows id f (t_rows (q_tbl s))) as [[rows n]|]; [|discriminate]. injection Er as <-.
      destruct Hu as [[-> [-> Hnone]]|[-> [pre [r [r' [post [Erows [-> [E2 [E3 _]]]]]]]]]].
      { rewrite mk_tbl_eta. apply Hleft. reflexivity. }
      unfold f in E3. injection E3 as <-. destruct (assignments_keep rp e r) as [K1 _].
      pose proof (iv_nodup s Hinv) as Hn. rewrite Erows in Hn, Hf0.
      assert (r = r0) as ->. { subst id. rewrite <- E2, (find_row_mid pre r r post Hn eq_refl) in Hf0. congruence. }
      split; [|split].
      - eexists. split; [cbn [q_tbl t_rows]; rewrite <- E2; apply find_row_mid; [exact Hn|exact K1]|]. apply assigned_clashes; assumption.
      - cbn [q_tbl t_rows]. intros x Hx Hcx. apply in_app_or in Hx. destruct Hx as [Hx|[<-|Hx]].
        + apply Hone; [rewrite Erows; apply in_or_app; left; exact Hx|exact Hcx].
        + rewrite K1. exact E2.
        + apply Hone; [rewrite Erows; apply in_or_app; right; right; exact Hx|exact Hcx].
      - intros k d Hd. cbn [q_calls] in Hd. apply nth_set in Hd. destruct Hd as [[_ [-> _]]|[_ Hd]]; [reflexivity|exact (Hpc k d Hd)]. }
    unfold unique_action in Hact. destruct pc; try contradiction; try (injection Hact as <- <- <-; split; [apply Hleft; exact I|reflexivity]).
    + injection Hact as <- <- <-. split; [|reflexivity]. apply Hleft. destruct (advisory_held _ _ _); exact I.
    + destruct (kin_search e He) as [w [E1 [E2 E3]]]. rewrite E1, E2 in Hact. cbn [negb] in Hact. cbv zeta in Hact.
      destruct (nth_error (filter _ _) _) as [x|] eqn:Ex in Hact.
      * apply nth_mod_in, filter_In in Ex. destruct Ex as [Hx Hcx]. apply E3 in Hcx. injection Hact as <- <- <-. split; [|reflexivity].
        apply Hleft. rewrite (Hone x Hx Hcx). destruct (uc_on_conflict uq); [reflexivity|]. destruct (existsb _ _); reflexivity.
      * exfalso. destruct (nth_mod_some (filter (pg_conflict uq (eq_executor e) w) (t_rows (q_tbl s))) pick) as [x [Ex' _]]; [|congruence].
        intro E. assert (Hf : In r0 (filter (pg_conflict uq (eq_executor e) w) (t_rows (q_tbl s)))).
        { apply filter_In. split; [apply find_row_some in Hf0; tauto|apply E3, Hcl0]. } rewrite E in Hf. destruct Hf.
    + subst id0. rewrite Hf0 in Hact. injection Hact as <- <- <-. split; [|reflexivity]. apply Hleft. destruct (row_locked _ _); reflexivity.
    + subst id0. destruct (uc_on_conflict uq) as [|rp]; [injection Hact as <- <- <-; split; [apply Hleft; reflexivity|reflexivity]|].
      eapply Hrepl. exact Hact.
    + injection Hact as <- <- <-. split; [|reflexivity]. apply Hleft. exact Hp.
  - cbn [qstep]. destruct (nth_error (q_calls s) i) as [c|] eqn:Hc; [|split; [split; [eauto|split; assumption]|reflexivity]]. cbn [fst snd].
    split; [|reflexivity]. split; [eauto|]. split; [assumption|]. intros k d Hd. cbn [q_calls] in Hd. apply nth_set in Hd. destruct Hd as [[-> [-> _]]|[_ Hd]]; [|exact (Hpc k d Hd)].
    cbn [qc_pc]. specialize (Hpc i c Hc). unfold gives_up. destruct (Hk i c Hc) as [e [-> _]]. cbn [failed]. exact I.
Qed.

Lemma inserts_app a b : inserts (a ++ b) = inserts a ++ inserts b.
Proof. apply flat_map_app. Qed.

Lemma after_run ls : forall s id, qinv s -> all_kin s -> after_insert id s ->
  (forall o, In (QCall o) ls -> exists e, o = OpEnqueue e /\ kin e) ->
  after_insert id (qrun ident s ls) /\ inserts (qtrace ident s ls) = [].
Proof.
  induction ls as [|l ls IH]; intros s id Hinv Hk Ha Hl; cbn [qrun qtrace]; [split; [exact Ha|reflexivity]|].
  destruct (after_step s l id Hinv Hk Ha) as [Ha' Hi]. rewrite inserts_app, Hi. cbn [app].
  apply IH; [apply step_inv; exact Hinv| |exact Ha'|intros o Ho; apply Hl; right; exact Ho].
  apply kin_step; [exact Hk|]. intros o ->. apply Hl. left. reflexivity.
Qed.

Lemma family_run ls : forall s, qinv s -> apart s -> all_kin s -> before_insert s ->
  (forall o, In (QCall o) ls -> exists e, o = OpEnqueue e /\ kin e) ->
  (before_insert (qrun ident s ls) /\ inserts (qtrace ident s ls) = [])
  \/ exists r, inserts (qtrace ident s ls) = [r] /\ after_insert (r_id r) (qrun ident s ls).
Proof.
  induction ls as [|l ls IH]; intros s Hinv Hap Hk Hb Hl; cbn [qrun qtrace]; [left; split; [exact Hb|reflexivity]|].
  assert (Hk' : all_kin (fst (qstep ident s l))) by (apply kin_step; [exact Hk|]; intros o ->; apply Hl; left; reflexivity).
  assert (Hl' : forall o, In (QCall o) ls -> exists e, o = OpEnqueue e /\ kin e) by (intros o Ho; apply Hl; right; exact Ho).
  rewrite inserts_app. destruct (before_step s l Hinv Hap Hk Hb) as [[Hb' Hi]|[r [Hi Ha]]]; rewrite Hi; cbn [app].
  - apply IH; try assumption; [apply step_inv; exact Hinv|apply apart_step; exact Hap].
  - right. destruct (after_run ls _ (r_id r) (step_inv ident s l Hinv) Hk' Ha Hl') as [Ha' Hi']. exists r. rewrite Hi'. split; [reflexivity|exact Ha'].
Qed.
End Family.
End Uniq.
