(** Lemmas about workers driving the Postgres backend. *)
From Coq Require Import Permutation.
From Verif Require Import Base Chrono Types TypesProofs Query QueryProofs Memory MemSpec MemProofs MemHist MemInv Codec Runner
  RunnerSpec WorkerProofs SysProofs PgRow PgQuery Pg PgSpec PgProofs PgQueryProofs PgOps PgHist PgSys PgSysSpec.

(** * Rows and jobs, without conditions on times and texts *)

Ltac same_fields := repeat (split; [first [assumption|reflexivity]|]); first [assumption|reflexivity].

Lemma read_text s : worded (error_of_text s) s.
Proof.
  unfold error_of_text. repeat match goal with |- context [String.eqb ?y ?x] =>
    destruct (String.eqb_spec y x) as [->|]; [constructor|] end. constructor; auto.
Qed.

(** The job after an error of this kind, as the row tells it. *)
Lemma errors_new now e r j : represents r j -> 0 <= j_attempt j <= 65535 ->
  Forall2 tells (r_errors r ++ [pg_error now e r])
    (j_errors j ++ [mk_job_error (j_attempt j mod 65536) (error_of_text (error_text (ee_type e))) (ee_message e) (pg_time now)]).
Proof.
  intros H Ha. row_fields H. apply Forall2_app; [assumption|]. constructor; [|constructor].
  unfold tells, pg_error; cbn. rewrite Z.mod_small by lia. rewrite R6. split; [exact Ha|]. split; [reflexivity|].
  split; [apply read_text|]. split; reflexivity.
Qed.

Lemma row_complete now r j : represents r j ->
  represents (put_status "complete" (put_completed_at (Some (pg_time now)) r)) (after_complete (pg_time now) j).
Proof. intro H. row_fields H. unfold represents; cbn. split; [assumption|]. split; [constructor|]. same_fields. Qed.

Lemma row_retryable now t e r j : represents r j -> 0 <= j_attempt j <= 65535 ->
  represents (put_status "retryable" (put_scheduled_at (pg_time t) (put_errors (r_errors r ++ [pg_error now e r]) r)))
    (after_retryable (pg_time now) (pg_time t) (error_of_text (error_text (ee_type e))) (ee_message e) j).
Proof.
  intros H Ha. pose proof (errors_new now e r j H Ha) as He. row_fields H. unfold represents; cbn.
  split; [assumption|]. split; [constructor|]. same_fields.
Qed.
Lemma row_discarded now e r j : represents r j -> 0 <= j_attempt j <= 65535 ->
  represents (put_status "discarded" (put_discarded_at (Some (pg_time now)) (put_errors (r_errors r ++ [pg_error now e r]) r)))
    (after_discarded (pg_time now) (error_of_text (error_text (ee_type e))) (ee_message e) j).
Proof.
  intros H Ha. pose proof (errors_new now e r j H Ha) as He. row_fields H. unfold represents; cbn.
  split; [assumption|]. split; [constructor|]. same_fields.
Qed.
Lemma row_cancelled now e r j : represents r j -> 0 <= j_attempt j <= 65535 ->
  represents (put_status "cancelled" (put_cancelled_at (Some (pg_time now)) (put_errors (r_errors r ++ [pg_error now e r]) r)))
    (after_cancelled (pg_time now) (error_of_text (error_text (ee_type e))) (ee_message e) j).
Proof.
  intros H Ha. pose proof (errors_new now e r j H Ha) as He. row_fields H. unfold represents; cbn.
  split; [assumption|]. split; [constructor|]. same_fields.
Qed.
Lemma waiting_text a : spelled (if Z.eq_dec a 1 then Scheduled else Retryable) (if a =? 1 then "scheduled" else "retryable").
Proof. destruct (Z.eq_dec a 1) as [->|H]; [constructor|]. apply Z.eqb_neq in H. rewrite H. constructor. Qed.
Lemma row_snoozed t r j : represents r j ->
  represents (put_status (if r_attempt r =? 1 then "scheduled" else "retryable")
      (put_scheduled_at (pg_time t) (put_attempt (r_attempt r - 1) r))) (after_snoozed (pg_time t) j).
Proof.
  intro H. row_fields H. unfold represents; cbn. split; [assumption|]. rewrite R6.
  split; [apply waiting_text|]. same_fields.
Qed.
Lemma row_rerun now r j : represents r j ->
  represents (put_status (if r_attempt r =? 1 then "scheduled" else "retryable")
      (put_scheduled_at (pg_time now) (put_completed_at None (put_cancelled_at None
        (put_discarded_at None (put_max_attempts (r_max_attempts r + 1) r)))))) (after_rerun (pg_time now) j).
Proof.
  intro H. row_fields H. unfold represents; cbn. split; [assumption|]. rewrite R6, R7.
  split; [apply waiting_text|]. same_fields.
Qed.
Lemma row_taken now r j : represents r j ->
  represents (put_status "executing" (put_attempted_at (Some (pg_time now)) (put_attempt (r_attempt r + 1) r)))
    (after_hand_out (pg_time now) j).
Proof.
  intro H. row_fields H. unfold represents; cbn. split; [assumption|]. split; [constructor|]. rewrite R6. same_fields.
Qed.
(** The request as the database keeps it. *)
Definition rounded (e : enqueuable) : enqueuable :=
  {| eq_executor := eq_executor e; eq_data := eq_data e; eq_metadata := eq_metadata e;
     eq_max_attempts := eq_max_attempts e; eq_scheduled_at := pg_time (eq_scheduled_at e); eq_tags := eq_tags e;
     eq_priority := eq_priority e; eq_criteria := eq_criteria e |}.
Lemma row_new now id key e : represents (new_row now id key e) (new_job (pg_time now) id (rounded e)).
Proof. unfold represents; cbn. split; [reflexivity|]. split; [constructor|]. repeat (split; [first [reflexivity|constructor]|]). reflexivity. Qed.

(** Two jobs that agree on everything the life cycle is about. *)
Definition alike (j j' : job) : Prop :=
  j_id j' = j_id j /\ j_status j' = j_status j /\ j_attempt j' = j_attempt j /\ j_max_attempts j' = j_max_attempts j
  /\ j_errors j' = j_errors j /\ j_completed_at j' = j_completed_at j /\ j_cancelled_at j' = j_cancelled_at j
  /\ j_discarded_at j' = j_discarded_at j.
Lemma fine_alike r f alone mx j j' : alike j j' -> fine r f alone mx j -> fine r f alone mx j'.
Proof.
  intros [_ [E1 [E2 [E3 [E4 [E5 [E6 E7]]]]]]] [H1 H2 H3 H4 H5 H6 H7 H8 H9].
  split; unfold waiting, timestamps_match, is_status in *; rewrite ?E1, ?E2, ?E3, ?E4, ?E5, ?E6, ?E7; auto.
Qed.
Lemma row_assigned rp e r j : rp_max_attempts rp = false -> represents r j ->
  exists j', represents (fold_left (fun r1 (a : bool * (row -> row)) => snd a r1) (pg_assignments rp e) r) j' /\ alike j j'.
Proof.
  intros Hm H. row_fields H. unfold pg_assignments. rewrite Hm.
  exists {| j_id := j_id j; j_status := j_status j; j_executor := j_executor j;
            j_data := if rp_data rp then eq_data e else j_data j;
            j_metadata := if rp_metadata rp then eq_metadata e else j_metadata j;
            j_attempt := j_attempt j; j_max_attempts := j_max_attempts j;
            j_priority := if rp_priority rp then eq_priority e else j_priority j;
            j_tags := j_tags j; j_errors := j_errors j; j_inserted_at := j_inserted_at j;
            j_scheduled_at := if rp_scheduled_at rp then pg_time (eq_scheduled_at e) else j_scheduled_at j;
            j_attempted_at := j_attempted_at j; j_completed_at := j_completed_at j;
            j_cancelled_at := j_cancelled_at j; j_discarded_at := j_discarded_at j |}.
  split; [|repeat split]. unfold represents.
  destruct (rp_scheduled_at rp), (rp_data rp), (rp_metadata rp), (rp_priority rp); cbn; same_fields.
Qed.

(** * Steps on the table *)

(** One row is replaced. *)
Definition swapped (t t' : tbl) (r r' : row) : Prop :=
  exists pre post, t_rows t = pre ++ r :: post /\ t' = mk_tbl (pre ++ r' :: post) (t_next t).

Lemma enqueue_swaps ident now e t t' res : NoDup (map r_id (t_rows t)) -> keeps_attempts e ->
  (forall r, In r (t_rows t) -> readable r) ->
  pg_enqueue ident now e t = (t', res) ->
  t' = t
  \/ (res = Ok (t_next t) /\ exists key, t_next t <= 2147483647 /\ t' = mk_tbl (t_rows t ++ [new_row now (t_next t) key e]) (t_next t + 1))
  \/ exists r r' j j', swapped t t' r r' /\ represents r j /\ represents r' j' /\ alike j j'.
Proof.
  intros Hn Hk Hread E. unfold pg_enqueue in E.
  assert (Hins : forall key, pg_insert now key e t = (t', res) -> t' = t
     \/ (res = Ok (t_next t) /\ exists key, t_next t <= 2147483647 /\ t' = mk_tbl (t_rows t ++ [new_row now (t_next t) key e]) (t_next t + 1))).
  { intros key Hi. apply insert_cases in Hi. destruct Hi as [[-> _]|[-> [Hb ->]]]; [auto|]. right. split; [reflexivity|]. exists key. auto. }
  destruct (eq_criteria e) as [uq|] eqn:Euq; [|apply Hins in E; tauto].
  unfold pg_insert_unique in E. destruct (pg_window uq (eq_scheduled_at e)) as [w|]; [|injection E as <- <-; auto].
  destruct (pg_window_ok uq (eq_executor e) w); cbn [negb] in E; [|injection E as <- <-; auto].
  destruct (find (pg_conflict uq (eq_executor e) w) (t_rows t)) as [r0|] eqn:Ef; [|apply Hins in E; tauto].
  destruct (pg_resolve uq e r0 t) as [t1|] eqn:Er; [|injection E as <- <-; auto].
  injection E as <- <-. unfold pg_resolve in Er. destruct (uc_on_conflict uq) as [|rp] eqn:Eoc; [injection Er as <-; auto|].
  destruct (existsb (fun s => String.eqb (label s) (r_status r0)) (rp_for_statuses rp)); [|injection Er as <-; auto].
  unfold pg_replace in Er. destruct (pg_assignments rp e) as [|a l] eqn:Ea; [discriminate|]. rewrite <- Ea in Er.
  destruct (forallb fst (pg_assignments rp e)); [|discriminate].
  set (f := fun r1 => Some (fold_left (fun r2 (a0 : bool * (row -> row)) => snd a0 r2) (pg_assignments rp e) r1)) in Er.
  pose proof (update_rows_spec (r_id r0) f (t_rows t) Hn) as Hu. destruct (update_rows (r_id r0) f (t_rows t)) as [[rows n]|]; [|discriminate].
  injection Er as <-. destruct Hu as [[-> [-> _]]|[-> [pre [r [r' [post [E [-> [E2 [E3 _]]]]]]]]]].
  - left. destruct t; reflexivity.
  - right. right. unfold f in E3. injection E3 as <-.
    destruct (Hread r) as [j Hj]; [rewrite E; apply in_or_app; right; left; reflexivity|].
    destruct (row_assigned rp e r j (Hk uq rp Euq Eoc) Hj) as [j' [Hj' Ha]].
    eexists r, _, j, j'. split; [exists pre, post; split; [exact E|reflexivity]|]. auto.
Qed.

Lemma update_swaps ok id f t t' res : NoDup (map r_id (t_rows t)) -> pg_update_by_id ok id f t = (t', res) ->
  (t' = t /\ exists e, res = Err e)
  \/ (res = Ok tt /\ exists r r', swapped t t' r r' /\ r_id r = id /\ f r = Some r').
Proof.
  intros Hn E. destruct (update_by_id_cases ok id f t t' res Hn E) as [H|[-> [pre [r [r' [post [E1 [E2 [E3 E4]]]]]]]]]; [auto|].
  right. split; [reflexivity|]. exists r, r'. split; [exists pre, post; auto|]. auto.
Qed.

(** The statement is refused only if it is not accepted, finds no row or cannot compute it. *)
Lemma update_takes ok id f t r : NoDup (map r_id (t_rows t)) -> ok = true -> In r (t_rows t) -> r_id r = id -> f r <> None ->
  snd (pg_update_by_id ok id f t) = Ok tt.
Proof.
  intros Hn -> Hr Hid Hf. unfold pg_update_by_id. cbn [negb].
  pose proof (update_rows_spec id f (t_rows t) Hn) as H. destruct (update_rows id f (t_rows t)) as [[l n]|].
  - destruct H as [[-> [_ H]]|[-> _]]; [exfalso; exact (H r Hr Hid)|reflexivity].
  - exfalso. destruct H as [r2 [H1 [H2 H3]]]. assert (r2 = r); [|congruence].
    eapply (nodup_map_eq r_id); [exact Hn|assumption|assumption|congruence].
Qed.

Lemma load_swaps now ex t t' res : NoDup (map r_id (t_rows t)) -> (forall r, In r (t_rows t) -> readable r) ->
  pg_load now ex t = (t', res) ->
  (t' = t /\ (res = Ok None \/ exists e, res = Err e))
  \/ exists r r' j, swapped t t' r r' /\ represents r j /\ waiting j /\ represents r' (after_hand_out (pg_time now) j)
       /\ res = Ok (Some (after_hand_out (pg_time now) j)).
Proof.
  intros Hn Hread E. unfold pg_load in E.
  destruct (storable ex); cbn [negb] in E; [|injection E as <- <-; left; split; [reflexivity|right; eauto]].
  pose proof (stable_sort_head pg_leb pg_leb_total pg_leb_trans (filter (pg_ready now ex) (t_rows t))) as Hh.
  destruct (stable_sort pg_leb (filter (pg_ready now ex) (t_rows t))) as [|r0 l]; [injection E as <- <-; left; auto|].
  destruct Hh as [fpre [fpost [Ef _]]].
  assert (Hin : In r0 (filter (pg_ready now ex) (t_rows t))) by (rewrite Ef; apply in_or_app; right; left; reflexivity).
  apply filter_In in Hin. destruct Hin as [Hin Hready].
  destruct (pg_take now r0) as [r1|] eqn:Et.
  - destruct (Hread r0 Hin) as [j Hj]. apply in_split in Hin. destruct Hin as [pre [post Es]]. rewrite Es in Hn.
    rewrite Es, (update_rows_one pre r0 post _ r1 Et Hn) in E.
    unfold pg_take, int4 in Et. destruct (in_i32 (r_attempt r0 + 1)); [|discriminate]. injection Et as <-.
    pose proof (row_taken now r0 j Hj) as Hr. pose proof Hr as Hr1. apply represents_iff in Hr1. rewrite Hr1 in E. injection E as <- <-.
    right. exists r0. eexists. exists j. split; [exists pre, post; split; [exact Es|reflexivity]|]. split; [exact Hj|].
    split; [|split; [exact Hr|reflexivity]]. apply (label_waiting r0 j Hj). unfold pg_ready in Hready.
    apply andb_true_iff in Hready. destruct Hready as [Hready _]. apply andb_true_iff in Hready. tauto.
  - destruct (update_rows (r_id r0) (pg_take now) (t_rows t)) as [[? ?]|]; injection E as <- <-; left; (split; [reflexivity|right; eauto]).
Qed.

Lemma sorted_same {A} (leb : A -> A -> bool) l : Permutation l (stable_sort leb l).
Proof.
  assert (Hi : forall x s, Permutation (x :: s) (insert_sorted leb x s)).
  { intros x s. induction s as [|y s IH]; [reflexivity|]. cbn [insert_sorted]. destruct (leb x y); [reflexivity|].
    rewrite perm_swap. constructor. exact IH. }
  induction l as [|x l IH]; [reflexivity|]. cbn [stable_sort fold_right]. rewrite <- Hi. constructor. exact IH.
Qed.

Lemma prune_keeps now ps t t' res : NoDup (map r_id (t_rows t)) -> pg_prune now ps t = (t', res) ->
  t_next t' = t_next t /\ (exists keep, t_rows t' = filter keep (t_rows t)) /\
  forall r, In r (t_rows t) -> r_status r <> label (ps_status ps) -> In r (t_rows t').
Proof.
  intros Hn E. unfold pg_prune in E.
  assert (Hsame : t_next t = t_next t /\ (exists keep, t_rows t = filter keep (t_rows t)) /\
    forall r, In r (t_rows t) -> r_status r <> label (ps_status ps) -> In r (t_rows t)).
  { split; [reflexivity|]. split; [|auto]. exists (fun _ => true). clear. induction (t_rows t) as [|x l IH]; [reflexivity|].
    cbn. rewrite <- IH. reflexivity. }
  destruct (pg_doomed now ps (t_rows t)) as [[ids|]|] eqn:Ed; try (injection E as <- <-; exact Hsame).
  destruct (pg_spec_ok (ps_executors ps)); injection E as <- <-; [|exact Hsame].
  split; [reflexivity|]. split; [eexists; reflexivity|]. intros r Hr Hst. apply filter_In. split; [exact Hr|].
  apply negb_true_iff. destruct (existsb (Z.eqb (r_id r)) ids) eqn:Ex; [|reflexivity]. exfalso.
  apply existsb_exists in Ex. destruct Ex as [i [Hi Ei]]. apply Z.eqb_eq in Ei. subst i.
  assert (Hsc : exists x, In x (filter (pg_in_scope ps) (t_rows t)) /\ r_id x = r_id r).
  { unfold pg_doomed in Ed. destruct (ps_by ps) as [d|n].
    - destruct (in_past (ps_status ps)).
      + destruct (dt_sub now d) as [c0|]; [|discriminate]. injection Ed as Ed. destruct (time_ok c0); [|discriminate]. injection Ed as <-.
        apply in_map_iff in Hi. destruct Hi as [x [E Hx]]. apply filter_In in Hx. exists x. tauto.
      + destruct (dt_add now d) as [c0|]; [|discriminate]. injection Ed as Ed. destruct (time_ok c0); [|discriminate]. injection Ed as <-.
        apply in_map_iff in Hi. destruct Hi as [x [E Hx]]. apply filter_In in Hx. exists x. tauto.
    - injection Ed as <-. apply in_map_iff in Hi. destruct Hi as [x [E Hx]]. exists x. split; [|exact E].
      eapply Permutation_in; [apply Permutation_sym, sorted_same|]. rewrite <- (firstn_skipn (Z.to_nat n)). apply in_or_app. right. exact Hx. }
  destruct Hsc as [x [Hx Eid]]. apply filter_In in Hx. destruct Hx as [Hx Hs].
  assert (x = r) as -> by (eapply (nodup_map_eq r_id); eassumption).
  unfold pg_in_scope in Hs. apply andb_true_iff in Hs. destruct Hs as [Hs _]. apply String.eqb_eq in Hs. contradiction.
Qed.

(** * The system *)

Lemma pg_results_cons id i o t h l s :
  pg_results id (mk_pgsys t h ((i, o) :: g_log s) l) = pg_results id s + b2z ((i =? id) && negb (is_snooze o)).
Proof. exact (results_cons id i o (mk_sys mem_init [] (g_log s)) mem_init []). Qed.
Lemma pg_failures_cons id i o t h l s :
  pg_failures id (mk_pgsys t h ((i, o) :: g_log s) l) = pg_failures id s + b2z ((i =? id) && is_failure o).
Proof. exact (failures_cons id i o (mk_sys mem_init [] (g_log s)) mem_init []). Qed.
Lemma pg_outcomes_none id s : (forall x, In x (g_log s) -> fst x <> id) -> pg_outcomes id s = [].
Proof. exact (outcomes_none id (mk_sys mem_init [] (g_log s))). Qed.

Lemma stored_fun s j j' : NoDup (map r_id (t_rows (g_tbl s))) -> stored s j -> stored s j' -> j_id j = j_id j' -> j = j'.
Proof.
  intros Hn [r [Hr Hj]] [r' [Hr' Hj']] E. assert (r = r') as <-.
  { eapply (nodup_map_eq r_id); [exact Hn|assumption|assumption|].
    rewrite (represents_id _ _ Hj), (represents_id _ _ Hj'). exact E. }
  eapply represents_fun; eassumption.
Qed.

Section S.
  Context {D M : Type}.
  Variable c : codec D M.
  Variable fns : executor_fns D M.
  Variable show : Z -> string.
  Variable ident : option Z -> option string -> list status -> Z.
  Notation sstep := (pgsys_step c fns show ident).
  Notation orun := (pg_orderly_run c fns show ident).
  Notation born := (pg_allowed c fns show ident).

  Definition away (s : pgsys) : list Z := map h_id (g_held s) ++ g_lost s.

  Record ginv (es : list sevent) (s : pgsys) : Prop := {
    gi_ids : ids_ok (g_tbl s);
    gi_log : forall x, In x (g_log s) -> fst x < t_next (g_tbl s);
    gi_read : forall r, In r (t_rows (g_tbl s)) -> readable r;
    gi_nodup : NoDup (away s);
    gi_held : forall h, In h (g_held s) -> exists j, stored s j /\ fits h j;
    gi_lost : forall id, In id (g_lost s) -> exists j, stored s j /\ j_id j = id /\ j_status j = Executing;
    gi_executing : forall j, stored s j -> j_status j = Executing -> In (j_id j) (away s);
    gi_fine : forall j, stored s j -> exists mx, born es (j_id j) mx /\ mx <= 65535
      /\ fine (pg_results (j_id j) s) (pg_failures (j_id j) s) (left_alone (j_id j) es) mx j;
    gi_bound : forall id, pg_results id s = 0 \/ exists mx, born es id mx /\ pg_results id s <= mx
  }.

  Lemma ginv_init : ginv [] pgsys_init.
  Proof.
    split.
    - exact ids_ok_init.
    - intros x [].
    - intros x [].
    - constructor.
    - intros x [].
    - intros x [].
    - intros j [r [[] _]].
    - intros j [r [[] _]].
    - intro id. left. reflexivity.
  Qed.

  Lemma pg_born_snoc es ev id m : born es id m -> born (es ++ [ev]) id (m + reruns_ev id ev).
  Proof.
    intros [es1 [now [e [es2 [s1 [-> [H1 [H2 [H3 [H4 ->]]]]]]]]]].
    exists es1, now, e, (es2 ++ [ev]), s1. rewrite <- app_assoc. split; [reflexivity|].
    split; [exact H1|]. split; [exact H2|]. split; [exact H3|]. split; [exact H4|]. rewrite (reruns_snoc show). lia.
  Qed.
  Lemma pg_bound_snoc es ev s s' id :
    pg_results id s' = pg_results id s ->
    (pg_results id s = 0 \/ exists mx, born es id mx /\ pg_results id s <= mx) ->
    pg_results id s' = 0 \/ exists mx, born (es ++ [ev]) id mx /\ pg_results id s' <= mx.
  Proof.
    intros E [H|[mx [H1 H2]]]; rewrite E; [auto|]. right. exists (mx + reruns_ev id ev).
    split; [apply pg_born_snoc; exact H1|]. pose proof (reruns_ev_nonneg show id ev). lia.
  Qed.
  Lemma pg_fine_other es ev s s' j :
    pg_results (j_id j) s' = pg_results (j_id j) s -> pg_failures (j_id j) s' = pg_failures (j_id j) s ->
    reruns_ev (j_id j) ev = 0 ->
    (exists mx, born es (j_id j) mx /\ mx <= 65535
       /\ fine (pg_results (j_id j) s) (pg_failures (j_id j) s) (left_alone (j_id j) es) mx j) ->
    exists mx, born (es ++ [ev]) (j_id j) mx /\ mx <= 65535
      /\ fine (pg_results (j_id j) s') (pg_failures (j_id j) s') (left_alone (j_id j) (es ++ [ev])) mx j.
  Proof.
    intros E1 E2 E3 [mx [H1 [H2 H3]]]. exists mx. rewrite E1, E2. split; [|split; [exact H2|]].
    - apply (pg_born_snoc es ev) in H1. rewrite E3, Z.add_0_r in H1. exact H1.
    - eapply fine_weaken; [|exact H3]. apply left_alone_app.
  Qed.

  (** Nothing changes in the table. *)
  Lemma ginv_same es s ev :
    ginv es s -> (forall j, stored s j -> reruns_ev (j_id j) ev = 0) -> ginv (es ++ [ev]) s.
  Proof.
    intros [I1 I2 I3 I4 I5 I6 I7 I8 I9] Hr. split; auto.
    - intros j Hj. apply (pg_fine_other es ev s); auto.
    - intro id. apply (pg_bound_snoc es ev s); auto.
  Qed.

  Lemma swapped_ids t t' r r' : swapped t t' r r' -> r_id r' = r_id r -> ids_ok t -> ids_ok t'.
  Proof.
    intros [pre [post [E ->]]] Hid [Hn [Hr Hb]]. rewrite E in *. unfold ids_ok; cbn [t_rows t_next].
    rewrite map_app in *. cbn [map] in *. rewrite Hid. split; [exact Hn|]. split; [|exact Hb].
    intros x Hx. apply in_app_or in Hx. destruct Hx as [Hx|[<-|Hx]].
    - apply Hr, in_or_app. auto.
    - rewrite Hid. apply Hr, in_or_app. cbn. auto.
    - apply Hr, in_or_app. cbn. auto.
  Qed.

  (** One job changes. *)
  Lemma ginv_update es s ev s' r r' j j' :
    ginv es s -> swapped (g_tbl s) (g_tbl s') r r' -> represents r j -> represents r' j' -> j_id j' = j_id j ->
    let id := j_id j in
    (forall x, In x (g_log s') -> In x (g_log s) \/ fst x = id) ->
    (forall i, i <> id -> pg_results i s' = pg_results i s /\ pg_failures i s' = pg_failures i s /\ reruns_ev i ev = 0) ->
    (exists mx, born (es ++ [ev]) id mx /\ mx <= 65535
       /\ fine (pg_results id s') (pg_failures id s') (left_alone id (es ++ [ev])) mx j') ->
    NoDup (away s') ->
    (forall h, In h (g_held s') -> h_id h <> id -> In h (g_held s)) ->
    (forall i, In i (g_lost s') -> i <> id -> In i (g_lost s)) ->
    (forall i, i <> id -> In i (away s) -> In i (away s')) ->
    (forall h, In h (g_held s') -> h_id h = id -> fits h j') ->
    (In id (g_lost s') -> j_status j' = Executing) ->
    (j_status j' = Executing -> In id (away s')) ->
    ginv (es ++ [ev]) s'.
  Proof.
    intros [I1 I2 I3 I4 I5 I6 I7 I8 I9] Hsw Hj Hj' Eid id Hlog Hoth Hfine Hnd Hh1 Hl1 Haw Hh2 Hl2 Hex.
    pose proof (represents_id _ _ Hj) as Hri. pose proof (represents_id _ _ Hj') as Hri'.
    assert (Hids : ids_ok (g_tbl s')) by (eapply swapped_ids; [exact Hsw|congruence|exact I1]).
    destruct Hsw as [pre [post [E E']]].
    assert (Hin : In r (t_rows (g_tbl s))) by (rewrite E; apply in_mid; auto).
    assert (Hst' : forall x, stored s' x <-> (x = j' \/ (stored s x /\ j_id x <> id))).
    { assert (Hne : forall y, In y pre \/ In y post -> r_id y <> id).
      { unfold id. rewrite <- Hri. destruct I1 as [Hn _]. rewrite E in Hn. intros y Hy.
        exact (nodup_other r_id pre r post y Hn Hy). }
      intro x. unfold stored. rewrite E'. cbn [t_rows]. split.
      - intros [y [Hy Hx]]. apply in_mid in Hy. destruct Hy as [->|Hy]; [left; eapply represents_fun; eassumption|].
        right. split; [exists y; split; [rewrite E; apply in_mid; auto|exact Hx]|].
        rewrite <- (represents_id _ _ Hx). auto.
      - intros [->|[[y [Hy Hx]] Hne']]; [exists r'; split; [apply in_mid; auto|exact Hj']|].
        exists y. split; [|exact Hx]. rewrite E in Hy. apply in_mid in Hy. apply in_mid. destruct Hy as [->|Hy]; [|auto].
        exfalso. apply Hne'. assert (x = j) as -> by (eapply represents_fun; eassumption). reflexivity. }
    assert (Hnx : t_next (g_tbl s') = t_next (g_tbl s)) by (rewrite E'; reflexivity).
    split; auto.
    - intros x Hx. rewrite Hnx. destruct (Hlog x Hx) as [Hx'| ->]; [auto|].
      destruct I1 as [_ [I1 _]]. specialize (I1 r Hin). unfold id. lia.
    - intros x Hx. rewrite E' in Hx. cbn [t_rows] in Hx. apply in_mid in Hx. destruct Hx as [->|Hx]; [exists j'; exact Hj'|].
      apply I3. rewrite E. apply in_mid. auto.
    - intros h Hh. destruct (Z.eq_dec (h_id h) id) as [Eh|Eh].
      + exists j'. split; [apply Hst'; auto|auto].
      + destruct (I5 h (Hh1 h Hh Eh)) as [j0 [H1 H2]]. exists j0. split; [|exact H2]. apply Hst'. right. split; [exact H1|].
        destruct H2 as [H2 _]. congruence.
    - intros i Hi. destruct (Z.eq_dec i id) as [->|Ei].
      + exists j'. split; [apply Hst'; auto|]. split; [exact Eid|auto].
      + destruct (I6 i (Hl1 i Hi Ei)) as [j0 [H1 [H2 H3]]]. exists j0. split; [apply Hst'; right; split; [exact H1|congruence]|auto].
    - intros x Hx Hsx. apply Hst' in Hx. destruct Hx as [->|[Hx Hne]]; [rewrite Eid; auto|]. apply Haw; [exact Hne|auto].
    - intros x Hx. apply Hst' in Hx. destruct Hx as [->|[Hx Hne]]; [rewrite Eid; exact Hfine|].
      destruct (Hoth _ Hne) as [R1 [R2 R3]]. apply (pg_fine_other es ev s); auto.
    - intro i. destruct (Z.eq_dec i id) as [->|Ei].
      + right. destruct Hfine as [mx [B [_ F]]]. exists mx. split; [exact B|].
        pose proof (fi_attempt _ _ _ _ _ F) as F1. pose proof (fi_range _ _ _ _ _ F).
        assert (0 <= b2z (is_status Executing j')) by (destruct (is_status Executing j'); cbn; lia). lia.
      + destruct (Hoth i Ei) as [R1 _]. apply (pg_bound_snoc es ev s); auto.
  Qed.

  Lemma ginv_take es s now ex s' : ginv es s -> sstep s (STake now ex) = Some s' -> ginv (es ++ [STake now ex]) s'.
  Proof.
    intros I Hs. unfold pgsys_step in Hs. destruct (pg_load now ex (g_tbl s)) as [t' res] eqn:E.
    destruct (load_swaps now ex (g_tbl s) t' res (proj1 (gi_ids _ _ I)) (gi_read _ _ I) E)
      as [[-> Hq]|[r [r' [j [Hsw [Hj [Hw [Hj' ->]]]]]]]].
    - assert (s' = s) as ->.
      { destruct Hq as [->|[e ->]]; injection Hs as <-; destruct s; reflexivity. }
      apply ginv_same; [exact I|reflexivity].
    - injection Hs as <-.
      assert (Hst : stored s j).
      { exists r. split; [|exact Hj]. destruct Hsw as [pre [post [Es _]]]. rewrite Es. apply in_mid. auto. }
      destruct (gi_fine _ _ I j Hst) as [mx [B [Hm F]]].
      assert (Hno : ~ In (j_id j) (away s)).
      { intro Hi. unfold away in Hi. apply in_app_or in Hi.
        assert (Hex : exists x, stored s x /\ j_id x = j_id j /\ j_status x = Executing).
        { destruct Hi as [Hi|Hi].
          - apply in_map_iff in Hi. destruct Hi as [h [Eh Hh]]. destruct (gi_held _ _ I h Hh) as [x [H1 [H2 [H3 _]]]].
            exists x. split; [exact H1|]. split; [congruence|exact H3].
          - exact (gi_lost _ _ I _ Hi). }
        destruct Hex as [x [H1 [H2 H3]]]. assert (x = j) as -> by (eapply stored_fun; [exact (proj1 (gi_ids _ _ I))|assumption|assumption|assumption]).
        destruct Hw; congruence. }
      eapply (ginv_update es s _ _ r r' j (after_hand_out (pg_time now) j)); cbn [g_tbl g_held g_log g_lost]; auto.
      + exists mx. split; [apply (pg_born_snoc es (STake now ex)) in B; cbn [reruns_ev] in B; rewrite Z.add_0_r in B; exact B|].
        split; [exact Hm|]. apply fine_hand_out; [exact Hw|]. eapply fine_weaken; [|exact F]. apply left_alone_app.
      + unfold away; cbn [g_held g_lost]. rewrite map_app, <- app_assoc. cbn [map app].
        apply (Permutation_NoDup (l := j_id j :: away s)).
        * unfold away. apply Permutation_middle.
        * constructor; [exact Hno|exact (gi_nodup _ _ I)].
      + intros h Hh Ne. apply in_app_or in Hh. destruct Hh as [Hh|[<-|[]]]; [exact Hh|]. destruct Ne. reflexivity.
      + intros i _ Hi. unfold away in *; cbn [g_held g_lost]. rewrite map_app, <- app_assoc. apply in_app_or in Hi. apply in_or_app.
        destruct Hi as [Hi|Hi]; [auto|]. right. apply in_or_app. auto.
      + intros h Hh Eh. apply in_app_or in Hh. destruct Hh as [Hh|[<-|[]]].
        { exfalso. apply Hno. unfold away. apply in_or_app. left. rewrite <- Eh. apply in_map. exact Hh. }
        unfold fits, h_id. cbn [h_job h_exec]. split; [reflexivity|]. split; [reflexivity|].
        split; [reflexivity|]. split; [reflexivity|]. intros x Hxx.
        destruct (begin_job c fns (after_hand_out (pg_time now) j)) as [x0| |] eqn:Eb; try discriminate.
        injection Hxx as <-. destruct (begin_spawned c fns show _ _ Eb) as [t [_ [_ [_ [H1 [H2 _]]]]]]. auto.
      + intros _. unfold away; cbn [g_held g_lost]. rewrite map_app, <- app_assoc. apply in_or_app. right. left. reflexivity.
  Qed.

  Lemma swapped_in t t' r r' : swapped t t' r r' -> In r (t_rows t).
  Proof. intros [pre [post [E _]]]. rewrite E. apply in_mid. auto. Qed.

  (** What a report does to the row. *)
  Lemma report_row now1 now2 now x o op t t' res r j rr f alone mx :
    report show now1 now2 x o = Some op -> NoDup (map r_id (t_rows t)) -> In r (t_rows t) -> represents r j ->
    x_final x = (j_attempt j =? j_max_attempts j) -> x_id x = j_id j -> j_status j = Executing ->
    fine rr f alone mx j -> mx <= 65535 -> pg_step ident now t op = (t', res) ->
    (t' = t /\ exists e, res = RUnit (Err e))
    \/ (res = RUnit (Ok tt) /\ exists r' j', swapped t t' r r' /\ represents r' j' /\ j_id j' = j_id j
        /\ fine (rr + b2z (negb (is_snooze o))) (f + b2z (is_failure o)) alone mx j' /\ j_status j' <> Executing).
  Proof.
    intros Hr Hn Hin Hj Hf Hid Hst F Hm Hs.
    pose proof (fi_range _ _ _ _ _ F) as Fr. pose proof (represents_id _ _ Hj) as Hri.
    assert (Ha : 0 <= j_attempt j <= 65535) by lia.
    assert (Hone : forall ok g, (let (t1, r1) := pg_update_by_id ok (x_id x) g t in (t1, RUnit r1)) = (t', res) ->
      (t' = t /\ exists e, res = RUnit (Err e)) \/ (res = RUnit (Ok tt) /\ exists r', swapped t t' r r' /\ g r = Some r')).
    { intros ok g E. destruct (pg_update_by_id ok (x_id x) g t) as [t1 r1] eqn:E1. injection E as -> <-.
      destruct (update_swaps ok (x_id x) g t t' r1 Hn E1) as [[-> [e ->]]|[-> [r0 [r' [Hsw [E2 E3]]]]]]; [left; eauto|].
      right. split; [reflexivity|]. exists r'. assert (r0 = r) as ->; [|auto].
      eapply (nodup_map_eq r_id); [exact Hn|eapply swapped_in; exact Hsw|exact Hin|congruence]. }
    assert (Hend : forall ok g j', (let (t1, r1) := pg_update_by_id ok (x_id x) g t in (t1, RUnit r1)) = (t', res) ->
      (forall r', g r = Some r' -> represents r' j') -> j_id j' = j_id j ->
      fine (rr + b2z (negb (is_snooze o))) (f + b2z (is_failure o)) alone mx j' -> j_status j' <> Executing ->
      (t' = t /\ exists e, res = RUnit (Err e))
      \/ (res = RUnit (Ok tt) /\ exists r' j', swapped t t' r r' /\ represents r' j' /\ j_id j' = j_id j
        /\ fine (rr + b2z (negb (is_snooze o))) (f + b2z (is_failure o)) alone mx j' /\ j_status j' <> Executing)).
    { intros ok g j' E Hg H1 H2 H3. destruct (Hone ok g E) as [H|[-> [r' [H4 H5]]]]; [auto|].
      right. split; [reflexivity|]. exists r', j'. auto 10. }
    assert (Herr : forall e, report_error now1 now2 x e = Some op -> is_snooze o = false -> is_failure o = true ->
      (t' = t /\ exists e, res = RUnit (Err e))
      \/ (res = RUnit (Ok tt) /\ exists r' j', swapped t t' r r' /\ represents r' j' /\ j_id j' = j_id j
        /\ fine (rr + b2z (negb (is_snooze o))) (f + b2z (is_failure o)) alone mx j' /\ j_status j' <> Executing)).
    { intros e Hre Eo1 Eo2. unfold report_error in Hre. rewrite Hf in Hre.
      destruct (Z.eqb_spec (j_attempt j) (j_max_attempts j)) as [Heq|Hne].
      - injection Hre as <-. cbn [pg_step] in Hs. unfold pg_retryable, pg_discarded in Hs. eapply Hend; [exact Hs| | |rewrite Eo1, Eo2; apply fine_discarded; eassumption|discriminate].
        + intros r' E. injection E as <-. apply row_discarded; assumption.
        + reflexivity.
      - destruct (dt_add now1 (x_delay x)); [|discriminate]. destruct (dt_add now2 (x_delay x)) as [at_|]; [|discriminate].
        injection Hre as <-. cbn [pg_step] in Hs. unfold pg_retryable, pg_discarded in Hs. eapply Hend; [exact Hs| | |rewrite Eo1, Eo2; apply fine_retryable; eassumption|discriminate].
        + intros r' E. injection E as <-. apply row_retryable; assumption.
        + reflexivity. }
    destruct o as [|reason|d|e| |pl text|text]; cbn [report] in Hr.
    - injection Hr as <-. cbn [pg_step] in Hs. unfold pg_complete, pg_cancelled, pg_snoozed in Hs. eapply Hend; [exact Hs| | | |].
      + intros r' E. injection E as <-. apply row_complete. exact Hj.
      + reflexivity.
      + cbn [is_snooze is_failure negb b2z]. rewrite Z.add_0_r. apply fine_complete; assumption.
      + discriminate.
    - destruct reason as [reason|]; [|discriminate]. injection Hr as <-. cbn [pg_step] in Hs. unfold pg_complete, pg_cancelled, pg_snoozed in Hs. eapply Hend; [exact Hs| | | |].
      + intros r' E. injection E as <-. exact (row_cancelled now (error_of_reason reason) r j Hj Ha).
      + reflexivity.
      + cbn [is_snooze is_failure negb b2z]. rewrite Z.add_0_r. apply fine_cancelled; assumption.
      + discriminate.
    - destruct (dt_add now1 d) as [at_|]; [|discriminate]. injection Hr as <-. cbn [pg_step] in Hs. unfold pg_complete, pg_cancelled, pg_snoozed in Hs. eapply Hend; [exact Hs| | | |].
      + intros r' E. unfold int4 in E. destruct (in_i32 (r_attempt r - 1)); [|discriminate]. injection E as <-.
        apply row_snoozed. exact Hj.
      + reflexivity.
      + cbn [is_snooze is_failure negb b2z]. rewrite !Z.add_0_r. apply fine_snoozed; assumption.
      + cbn. destruct (Z.eq_dec (j_attempt j) 1); discriminate.
    - destruct e as [e|]; [|discriminate]. eapply Herr; [exact Hr|reflexivity|reflexivity].
    - destruct (x_timeout x); [|discriminate]. eapply Herr; [exact Hr|reflexivity|reflexivity].
    - eapply Herr; [exact Hr|reflexivity|reflexivity].
    - eapply Herr; [exact Hr|reflexivity|reflexivity].
  Qed.

  Lemma ginv_report es s now1 now2 now i o s' :
    ginv es s -> sstep s (SReport now1 now2 now i o) = Some s' -> ginv (es ++ [SReport now1 now2 now i o]) s'.
  Proof.
    intros I Hs. unfold pgsys_step in Hs.
    destruct (nth_error (g_held s) i) as [[hj [x|]]|] eqn:En; try discriminate.
    destruct (report show now1 now2 x o) as [op|] eqn:Er; [|discriminate].
    destruct (pg_step ident now (g_tbl s) op) as [t' res] eqn:Es.
    set (h0 := mk_holding hj (Some x)) in *.
    assert (Hh0 : In h0 (g_held s)) by (eapply nth_error_In; exact En).
    destruct (drop_nth_split i (g_held s) h0 En) as [l1 [l2 [Eh Ed]]].
    destruct (gi_held _ _ I h0 Hh0) as [j [Hst [F1 [F2 [F3 [F4 F5]]]]]].
    destruct (F5 x eq_refl) as [X1 X2]. cbn [h_job h0] in F3, F4, X2.
    assert (Xid : x_id x = j_id j) by congruence.
    destruct (gi_fine _ _ I j Hst) as [mx [B [Hm F]]]. pose proof Hst as Hst0. destruct Hst0 as [r [Hr Hj]].
    assert (Hb : born (es ++ [SReport now1 now2 now i o]) (j_id j) mx).
    { apply (pg_born_snoc es (SReport now1 now2 now i o)) in B. cbn [reruns_ev] in B. rewrite Z.add_0_r in B. exact B. }
    pose proof (gi_nodup _ _ I) as Hnd. unfold away in Hnd. rewrite Eh, map_app in Hnd. cbn [map] in Hnd.
    rewrite <- app_assoc in Hnd. cbn [app] in Hnd.
    assert (Hrest : ~ In (j_id j) (map h_id l1 ++ map h_id l2 ++ g_lost s) /\ NoDup (map h_id l1 ++ map h_id l2 ++ g_lost s)).
    { split; [rewrite F1; exact (NoDup_remove_2 _ _ _ Hnd)|exact (NoDup_remove_1 _ _ _ Hnd)]. }
    destruct Hrest as [Hno Hnd2].
    assert (Hheld : forall h, In h (l1 ++ l2) -> h_id h <> j_id j).
    { intros h Hh E. apply Hno. rewrite <- E. rewrite app_assoc, <- map_app. apply in_or_app. left. apply in_map. exact Hh. }
    assert (Haway : forall k, k <> j_id j -> In k (away s) -> In k (map h_id l1 ++ map h_id l2 ++ g_lost s)).
    { intros k Ek Hk. unfold away in Hk. rewrite Eh, map_app in Hk. cbn [map] in Hk. rewrite <- app_assoc in Hk. cbn [app] in Hk.
      apply in_app_or in Hk. apply in_or_app. destruct Hk as [Hk|[Hk|Hk]]; auto. congruence. }
    assert (Hfin : x_final x = (j_attempt j =? j_max_attempts j)) by (rewrite X2, F3, F4; reflexivity).
    destruct (report_row now1 now2 now x o op (g_tbl s) t' res r j _ _ _ mx Er (proj1 (gi_ids _ _ I)) Hr Hj Hfin Xid F2 F Hm Es)
      as [[-> [e ->]]|[-> [r' [j' [Hsw [Hj' [Eid [F' Hnex]]]]]]]].
    - (* refused: the job stays executing *)
      injection Hs as <-.
      assert (Hsw : swapped (g_tbl s) (g_tbl s) r r).
      { apply in_split in Hr. destruct Hr as [pre [post E]]. exists pre, post. split; [exact E|]. rewrite <- E. destruct (g_tbl s); reflexivity. }
      eapply (ginv_update es s _ _ r r j j); cbn [g_tbl g_held g_log g_lost]; auto.
      + exists mx. split; [exact Hb|]. split; [exact Hm|]. eapply fine_weaken; [|exact F]. apply left_alone_app.
      + unfold away; cbn [g_held g_lost]. rewrite Ed, map_app, <- app_assoc, Xid.
        apply (Permutation_NoDup (l := j_id j :: map h_id l1 ++ map h_id l2 ++ g_lost s)); [|constructor; assumption].
        rewrite !app_assoc. apply Permutation_middle.
      + intros h Hh _. eapply drop_nth_in; exact Hh.
      + intros k Hk Ek. destruct Hk as [Hk|Hk]; [congruence|exact Hk].
      + intros k Ek Hk. apply (Haway k Ek) in Hk. unfold away; cbn [g_held g_lost]. rewrite Ed, map_app, <- app_assoc.
        apply in_app_or in Hk. apply in_or_app. destruct Hk as [Hk|Hk]; [auto|]. right. apply in_app_or in Hk. apply in_or_app. cbn. tauto.
      + intros h Hh E. rewrite Ed in Hh. destruct (Hheld h Hh E).
      + intros _. unfold away; cbn [g_held g_lost]. apply in_or_app. right. left. exact Xid.
    - injection Hs as <-.
      eapply (ginv_update es s _ _ r r' j j'); cbn [g_tbl g_held g_log g_lost]; auto.
      + intros y [<-|Hy]; [right; exact Xid|auto].
      + intros k Ek. rewrite pg_results_cons, pg_failures_cons.
        destruct (Z.eqb_spec (x_id x) k); [congruence|]. cbn [andb b2z reruns_ev]. split; [lia|]. split; [lia|reflexivity].
      + exists mx. split; [exact Hb|]. split; [exact Hm|]. rewrite pg_results_cons, pg_failures_cons, Xid, Z.eqb_refl. cbn [andb].
        eapply fine_weaken; [|exact F']. apply left_alone_app.
      + unfold away; cbn [g_held g_lost]. rewrite Ed, map_app, <- app_assoc. exact Hnd2.
      + intros h Hh _. eapply drop_nth_in; exact Hh.
      + intros k Ek Hk. apply (Haway k Ek) in Hk. unfold away; cbn [g_held g_lost]. rewrite Ed, map_app, <- app_assoc. exact Hk.
      + intros h Hh E. rewrite Ed in Hh. destruct (Hheld h Hh E).
      + intro Hl. exfalso. apply Hno. apply in_or_app. right. apply in_or_app. auto.
      + intro E. contradiction.
  Qed.

  (** An operation from outside that changes one job and leaves the workers alone. *)
  Lemma ginv_outside es s now o t' r r' j j' :
    ginv es s -> swapped (g_tbl s) t' r r' -> represents r j -> represents r' j' -> j_id j' = j_id j ->
    (forall i, i <> j_id j -> reruns_ev i (SOp now o) = 0) ->
    (exists mx, born (es ++ [SOp now o]) (j_id j) mx /\ mx <= 65535
       /\ fine (pg_results (j_id j) s) (pg_failures (j_id j) s) (left_alone (j_id j) (es ++ [SOp now o])) mx j') ->
    (forall h, fits h j -> fits h j') -> (j_status j' = Executing <-> j_status j = Executing) ->
    ginv (es ++ [SOp now o]) (mk_pgsys t' (g_held s) (g_log s) (g_lost s)).
  Proof.
    intros I Hsw Hj Hj' Eid Hr Hf Hfit Hst.
    assert (Hs : stored s j) by (exists r; split; [eapply swapped_in; exact Hsw|exact Hj]).
    pose proof (proj1 (gi_ids _ _ I)) as Hn.
    eapply (ginv_update es s _ _ r r' j j'); cbn [g_tbl g_held g_log g_lost]; auto.
    - exact (gi_nodup _ _ I).
    - intros h Hh E. apply Hfit. destruct (gi_held _ _ I h Hh) as [x [H1 H2]].
      assert (x = j) as <-; [|exact H2]. eapply stored_fun; [exact Hn|assumption|assumption|]. destruct H2 as [H2 _]. congruence.
    - intro Hl. apply Hst. destruct (gi_lost _ _ I _ Hl) as [x [H1 [H2 H3]]].
      assert (x = j) as <-; [|exact H3]. eapply stored_fun; [exact Hn|assumption|assumption|exact H2].
    - intro E. apply Hst in E. exact (gi_executing _ _ I j Hs E).
  Qed.

  Lemma clock_ok now : -210866803200000000000 <= now -> time_ok now = true.
  Proof.
    intro H. unfold time_ok, bind_time.
    assert (Hk : kept_time (-210866803200000000000)) by (split; [exists (-210866803200000000); lia|lia]).
    destruct (pg_time_kept _ Hk) as [E _]. pose proof (pg_time_mono _ _ H) as Hm. rewrite E in Hm.
    assert (Hl : pg_first <=? pg_time now = true) by (apply Z.leb_le; unfold pg_first, pg_epoch, ns_per_s; lia).
    rewrite Hl. reflexivity.
  Qed.

  Lemma ginv_op es s now o s' :
    ginv es s -> orun pgsys_init es s -> pg_orderly s (SOp now o) -> sstep s (SOp now o) = Some s' -> ginv (es ++ [SOp now o]) s'.
  Proof.
    intros I Hrun Hord Hs. cbn [pgsys_step] in Hs. injection Hs as <-.
    pose proof (proj1 (gi_ids _ _ I)) as Hn. pose proof (gi_read _ _ I) as Hread.
    assert (Hsame : forall t, t = g_tbl s -> (forall j, stored s j -> reruns_ev (j_id j) (SOp now o) = 0) ->
      ginv (es ++ [SOp now o]) (mk_pgsys t (g_held s) (g_log s) (g_lost s))).
    { intros t -> Hr. destruct s as [tt0 hh ll lo]. apply (ginv_same es _ _ I Hr). }
    assert (Hold : forall j, stored s j -> reruns_ev (j_id j) (SOp now o) = 0 ->
      exists mx, born (es ++ [SOp now o]) (j_id j) mx /\ mx <= 65535
        /\ fine (pg_results (j_id j) s) (pg_failures (j_id j) s) (left_alone (j_id j) es) mx j).
    { intros j Hj Hr. destruct (gi_fine _ _ I j Hj) as [mx [B [Hm F]]]. exists mx. split; [|auto].
      apply (pg_born_snoc es (SOp now o)) in B. rewrite Hr, Z.add_0_r in B. exact B. }
    destruct o as [e|ex|id|id t0 er|id er|id er|id t0|ps|id|j0|q|ex| |]; cbn [pg_orderly] in Hord; try contradiction;
      cbn [pg_step]; try (apply Hsame; [reflexivity|intros; reflexivity]).
    - (* enqueue *)
      destruct Hord as [Hmax Hkeep]. destruct (pg_enqueue ident now e (g_tbl s)) as [t' res] eqn:E. cbn [fst].
      destruct (enqueue_swaps ident now e (g_tbl s) t' res Hn Hkeep Hread E) as [->|[[-> [key [Hb Et]]]|[r [r' [j [j' [Hsw [Hj [Hj' Ha]]]]]]]]].
      + apply Hsame; [reflexivity|intros; reflexivity].
      + set (i := t_next (g_tbl s)) in *.
        assert (Hst' : forall x, stored (mk_pgsys t' (g_held s) (g_log s) (g_lost s)) x <-> (stored s x \/ x = new_job (pg_time now) i (rounded e))).
        { intro x. unfold stored. rewrite Et. cbn [g_tbl t_rows]. split.
          - intros [r [Hr Hx]]. apply in_app_or in Hr. destruct Hr as [Hr|[<-|[]]]; [left; eauto|].
            right. eapply represents_fun; [exact Hx|apply row_new].
          - intros [[r [Hr Hx]]| ->]; [exists r; split; [apply in_or_app; auto|exact Hx]|].
            eexists. split; [apply in_or_app; right; left; reflexivity|apply row_new]. }
        pose proof I as [I1 I2 I3 I4 I5 I6 I7 I8 I9].
        assert (Hnew : forall x, stored s x -> j_id x <> i).
        { intros x [r [Hr Hx]] Ex. destruct I1 as [_ [I1 _]]. specialize (I1 r Hr). rewrite (represents_id _ _ Hx) in I1. unfold i in Ex. lia. }
        split; cbn [g_tbl g_held g_log g_lost].
        * pose proof (step_ids ident now (g_tbl s) (OpEnqueue e) I1) as [H _]. cbn [pg_step] in H. rewrite E in H. exact H.
        * intros x Hx. specialize (I2 x Hx). rewrite Et. cbn [t_next]. unfold i. lia.
        * intros r Hr. rewrite Et in Hr. cbn [t_rows] in Hr. apply in_app_or in Hr. destruct Hr as [Hr|[<-|[]]]; [auto|].
          eexists. apply row_new.
        * exact I4.
        * intros h Hh. destruct (I5 h Hh) as [x [H1 H2]]. exists x. split; [apply Hst'; auto|exact H2].
        * intros k Hk. destruct (I6 k Hk) as [x [H1 H2]]. exists x. split; [apply Hst'; auto|exact H2].
        * intros x Hx Ex. apply Hst' in Hx. destruct Hx as [Hx| ->]; [exact (I7 x Hx Ex)|discriminate].
        * intros x Hx. apply Hst' in Hx. destruct Hx as [Hx| ->].
          -- apply (pg_fine_other es (SOp now (OpEnqueue e)) s); auto.
          -- cbn [new_job j_id]. exists (eq_max_attempts e). split; [|split; [lia|]].
             ++ exists es, now, e, [], s. split; [reflexivity|]. split; [exact Hrun|]. split; [cbn [pg_step]; rewrite E; reflexivity|].
                split; [exact Hnew|]. split; [exact Hmax|]. unfold reruns; cbn. lia.
             ++ assert (Hno : pg_outcomes i (mk_pgsys t' (g_held s) (g_log s) (g_lost s)) = []).
                { apply pg_outcomes_none. intros x Hx Ex. specialize (I2 x Hx). unfold i in Ex. lia. }
                unfold pg_results, pg_failures. rewrite Hno. cbn [filter length Z.of_nat].
                change (eq_max_attempts e) with (eq_max_attempts (rounded e)). apply fine_new. exact Hmax.
        * intro k. apply (pg_bound_snoc es _ s); auto.
      + assert (Hs : stored s j) by (exists r; split; [eapply swapped_in; exact Hsw|exact Hj]).
        pose proof Ha as [A0 [A1 [A2 [A3 _]]]].
        eapply ginv_outside; [exact I|exact Hsw|exact Hj|exact Hj'|exact A0|intros; reflexivity| | |].
        * destruct (Hold j Hs eq_refl) as [mx [B [Hm F]]]. exists mx. split; [exact B|]. split; [exact Hm|].
          eapply fine_alike; [exact Ha|]. eapply fine_weaken; [|exact F]. apply left_alone_app.
        * intros h [F1 [F2 [F3 [F4 F5]]]]. unfold fits. rewrite A0, A1, A2, A3. auto.
        * rewrite A1. tauto.
    - (* cancel *)
      destruct (pg_cancelled now id er (g_tbl s)) as [t' res] eqn:E. cbn [fst]. unfold pg_cancelled in E.
      destruct (update_swaps _ _ _ _ _ _ Hn E) as [[-> _]|[-> [r [r' [Hsw [Eid Ef]]]]]]; [apply Hsame; [reflexivity|intros; reflexivity]|].
      injection Ef as <-. destruct (Hread r (swapped_in _ _ _ _ Hsw)) as [j Hj].
      assert (Hs : stored s j) by (exists r; split; [eapply swapped_in; exact Hsw|exact Hj]).
      assert (Hid : j_id j = id) by (rewrite <- (represents_id _ _ Hj); exact Eid).
      pose proof (Hord j Hs Hid) as Hw. destruct (Hold j Hs eq_refl) as [mx [B [Hm F]]].
      assert (Ha : 0 <= j_attempt j <= 65535) by (pose proof (fi_range _ _ _ _ _ F); lia).
      eapply ginv_outside; [exact I|exact Hsw|exact Hj|exact (row_cancelled now er r j Hj Ha)|reflexivity|intros; reflexivity| | |].
      + exists mx. split; [exact B|]. split; [exact Hm|].
        eapply fine_weaken; [|eapply fine_cancel_waiting; [exact Hw|exact F]].
        intro Hal. specialize (Hal now (OpCancelled id er)). cbn in Hal.
        apply Hal; [apply in_or_app; right; left; reflexivity|auto].
      + intros h [_ [F2 _]]. destruct Hw; congruence.
      + cbn. split; [discriminate|]. intro E0. destruct Hw; congruence.
    - (* prune *)
      destruct (pg_prune now ps (g_tbl s)) as [t' res] eqn:E. cbn [fst].
      destruct (prune_keeps now ps (g_tbl s) t' res Hn E) as [Hnx [[keep Hk] Hin]].
      pose proof I as [I1 I2 I3 I4 I5 I6 I7 I8 I9].
      set (s1 := mk_pgsys t' (g_held s) (g_log s) (g_lost s)).
      assert (Hsub : forall x, stored s1 x -> stored s x).
      { intros x [r [Hr Hx]]. cbn [s1 g_tbl] in Hr. rewrite Hk in Hr. apply filter_In in Hr. exists r. tauto. }
      assert (Hex : forall x, stored s x -> j_status x = Executing -> stored s1 x).
      { intros x [r [Hr Hx]] Ex. exists r. split; [|exact Hx]. apply Hin; [exact Hr|]. row_fields Hx. apply spelled_label in R2.
        rewrite R2, Ex. intro El. apply (label_inj Executing) in El. congruence. }
      split; cbn [s1 g_tbl g_held g_log g_lost].
      * pose proof (step_ids ident now (g_tbl s) (OpPrune ps) I1) as [H _]. cbn [pg_step] in H. rewrite E in H. exact H.
      * intros x Hx. rewrite Hnx. auto.
      * intros r Hr. rewrite Hk in Hr. apply filter_In in Hr. apply I3. tauto.
      * exact I4.
      * intros h Hh. destruct (I5 h Hh) as [x [H1 H2]]. exists x. split; [|exact H2]. apply Hex; [exact H1|]. destruct H2 as [_ [H2 _]]. exact H2.
      * intros k Hk'. destruct (I6 k Hk') as [x [H1 [H2 H3]]]. exists x. split; [apply Hex; assumption|auto].
      * intros x Hx Ex. apply (I7 x (Hsub x Hx) Ex).
      * intros x Hx. apply (pg_fine_other es (SOp now (OpPrune ps)) s); auto.
      * intro k. apply (pg_bound_snoc es _ s); auto.
    - (* rerun *)
      destruct Hord as [Hclock Hord].
      destruct (pg_rerun now id (g_tbl s)) as [t' res] eqn:E. cbn [fst]. unfold pg_rerun in E. rewrite (clock_ok now Hclock) in E.
      match type of E with pg_update_by_id _ _ ?g _ = _ => set (f := g) in E end.
      assert (Hgo : forall j r, In r (t_rows (g_tbl s)) -> represents r j -> j_id j = id ->
        f r = Some (put_status (if r_attempt r =? 1 then "scheduled" else "retryable")
                      (put_scheduled_at (pg_time now) (put_completed_at None (put_cancelled_at None
                        (put_discarded_at None (put_max_attempts (r_max_attempts r + 1) r))))))).
      { intros j r Hr Hj Hid. destruct (Hord j (ex_intro _ r (Logic.conj Hr Hj)) Hid) as [_ Hmx].
        destruct (gi_fine _ _ I j (ex_intro _ r (Logic.conj Hr Hj))) as [mx [_ [Hm F]]].
        pose proof (fi_range _ _ _ _ _ F). pose proof (fi_max _ _ _ _ _ F).
        unfold f, int4. row_fields Hj. assert (E1 : in_i32 (r_max_attempts r + 1) = true) by (apply in_i32_spec; lia).
        rewrite E1. reflexivity. }
      destruct (update_swaps _ _ _ _ _ _ Hn E) as [[-> [e Ee]]|[-> [r [r' [Hsw [Eid Ef]]]]]].
      + apply Hsame; [reflexivity|]. intros j [r [Hr Hj]]. cbn. destruct (Z.eqb_spec id (j_id j)) as [Ei|]; [|reflexivity]. exfalso.
        assert (Hok : snd (pg_update_by_id true id f (g_tbl s)) = Ok tt).
        { apply (update_takes true id f (g_tbl s) r); auto.
          - rewrite (represents_id _ _ Hj). auto.
          - rewrite (Hgo j r Hr Hj); [discriminate|auto]. }
        rewrite E in Hok. cbn in Hok. congruence.
      + pose proof (swapped_in _ _ _ _ Hsw) as Hr. destruct (Hread r Hr) as [j Hj].
        assert (Hs : stored s j) by (exists r; auto).
        assert (Hid : j_id j = id) by (rewrite <- (represents_id _ _ Hj); exact Eid).
        rewrite (Hgo j r Hr Hj Hid) in Ef. injection Ef as <-.
        destruct (Hord j Hs Hid) as [Hnex Hmx]. destruct (gi_fine _ _ I j Hs) as [mx [B [Hm F]]].
        pose proof (fi_max _ _ _ _ _ F) as Fm.
        eapply ginv_outside; [exact I|exact Hsw|exact Hj|exact (row_rerun now r j Hj)|reflexivity| | | |].
        * intros i Hi. cbn. destruct (Z.eqb_spec id i); [congruence|reflexivity].
        * exists (mx + 1). split; [|split; [lia|]].
          -- apply (pg_born_snoc es (SOp now (OpRerun id))) in B. cbn [reruns_ev] in B.
             rewrite <- Hid, Z.eqb_refl in B. cbn [b2z] in B. rewrite <- Hid. exact B.
          -- eapply fine_weaken; [|eapply fine_rerun; [exact Hnex| |exact F]].
             ++ intro Hal. specialize (Hal now (OpRerun id)). cbn in Hal.
                apply Hal; [apply in_or_app; right; left; reflexivity|auto].
             ++ lia.
        * intros h [_ [F' _]]. contradiction.
        * cbn. split; [|intro; contradiction]. destruct (Z.eq_dec (j_attempt j) 1); discriminate.
  Qed.

  Lemma pg_orun_snoc s es s1 ev s' : orun s es s1 -> pg_orderly s1 ev -> sstep s1 ev = Some s' -> orun s (es ++ [ev]) s'.
  Proof.
    intro H. induction H as [s|s ev0 s0 es s1 Ho Hs H IH]; intros Ho' Hs'; cbn.
    - econstructor; [exact Ho'|exact Hs'|constructor].
    - econstructor; [exact Ho|exact Hs|auto].
  Qed.

  Lemma ginv_run es2 : forall es1 s1 s, orun pgsys_init es1 s1 -> ginv es1 s1 -> orun s1 es2 s -> ginv (es1 ++ es2) s.
  Proof.
    induction es2 as [|ev es2 IH]; intros es1 s1 s H1 I H2.
    - inversion H2; subst. rewrite app_nil_r. exact I.
    - inversion H2 as [|? ? s2 ? ? Ho Hs H3]; subst.
      replace (es1 ++ ev :: es2) with ((es1 ++ [ev]) ++ es2) by (rewrite <- app_assoc; reflexivity).
      eapply IH; [eapply pg_orun_snoc; eassumption | | exact H3].
      destruct ev as [now o|now ex|now1 now2 now i o].
      + eapply ginv_op; eassumption.
      + eapply ginv_take; eassumption.
      + eapply ginv_report; eassumption.
  Qed.
  Lemma run_ginv es s : orun pgsys_init es s -> ginv es s.
  Proof. intro H. exact (ginv_run es [] pgsys_init s (por_nil _ _ _ _ _) ginv_init H). Qed.
End S.
