(** Lemmas about loading, enqueueing and pruning on Postgres. *)
From Coq Require Import Permutation Sorted.
From Verif Require Import Base Chrono Types TypesProofs Query QueryProofs WhereProofs Memory MemSpec MemProofs
  PgRow PgQuery Pg PgSpec PgProofs PgQueryProofs.

(** * Hand-out *)

Lemma forall2_in_l {A B} (P : A -> B -> Prop) l l' x : Forall2 P l l' -> In x l -> exists y, In y l' /\ P x y.
Proof.
  induction 1 as [|a b l l' Hab _ IH]; intros Hx; [destruct Hx|]. destruct Hx as [->|Hx]; [exists b; cbn; auto|].
  destruct (IH Hx) as [y [? ?]]. exists y. cbn. auto.
Qed.
Lemma forall2_in_r {A B} (P : A -> B -> Prop) l l' y : Forall2 P l l' -> In y l' -> exists x, In x l /\ P x y.
Proof.
  induction 1 as [|a b l l' Hab _ IH]; intros Hx; [destruct Hx|]. destruct Hx as [->|Hx]; [exists a; cbn; auto|].
  destruct (IH Hx) as [x [? ?]]. exists x. cbn. auto.
Qed.

Lemma label_waiting r j : represents r j ->
  (String.eqb (r_status r) "scheduled" || String.eqb (r_status r) "retryable" = true <-> waiting j).
Proof.
  intro H. row_fields H. unfold waiting. rewrite orb_true_iff, !String.eqb_eq.
  destruct R2; cbn; intuition discriminate.
Qed.

Lemma pg_ready_due now ex r j : kept_time now -> represents r j -> (pg_ready now ex r = true <-> due now ex j).
Proof.
  intros Hn H. unfold pg_ready, due. pose proof (label_waiting r j H) as Hw. row_fields H.
  rewrite !andb_true_iff, Hw, String.eqb_eq, Z.ltb_lt. destruct (pg_time_kept now Hn) as [-> _].
  unfold dt_diff, ns_per_ms. rewrite R3, R12. unfold time in *. intuition lia.
Qed.

Lemma pg_leb_before a b ja jb : represents a ja -> represents b jb -> (pg_leb a b = false <-> pg_before jb ja).
Proof.
  intros Ha Hb. row_fields Ha. row_fields Hb. unfold pg_leb, pg_before.
  destruct (Z.compare_spec (r_priority a) (r_priority b)); rewrite ?Z.leb_gt;
    unfold time in *; split; try lia; discriminate.
Qed.
Lemma pg_leb_total a b : pg_leb a b = true \/ pg_leb b a = true.
Proof.
  unfold pg_leb. destruct (Z.compare_spec (r_priority a) (r_priority b)) as [E|E|E];
    destruct (Z.compare_spec (r_priority b) (r_priority a)) as [F|F|F]; rewrite ?Z.leb_le; try lia; auto.
Qed.
Lemma pg_leb_trans a b c : pg_leb a b = true -> pg_leb b c = true -> pg_leb a c = true.
Proof.
  unfold pg_leb. destruct (Z.compare_spec (r_priority a) (r_priority b)) as [E|E|E];
    destruct (Z.compare_spec (r_priority b) (r_priority c)) as [F|F|F];
    destruct (Z.compare_spec (r_priority a) (r_priority c)) as [G|G|G]; rewrite ?Z.leb_le; try lia; try discriminate; auto.
Qed.

Lemma update_rows_one pre r post f r' : f r = Some r' -> NoDup (map r_id (pre ++ r :: post)) ->
  update_rows (r_id r) f (pre ++ r :: post) = Some (pre ++ r' :: post, 1).
Proof.
  intros Hf Hn. pose proof (update_rows_spec (r_id r) f _ Hn) as H.
  destruct (update_rows (r_id r) f (pre ++ r :: post)) as [[l n]|].
  - destruct H as [[_ [_ H]]|[-> [pre2 [r2 [r2' [post2 [E [-> [E2 [E3 [H1 H2]]]]]]]]]]].
    + exfalso. apply (H r); [apply in_or_app; right; left; reflexivity|reflexivity].
    + assert (Hs : pre = pre2 /\ r = r2 /\ post = post2).
      { clear -E E2 H1 Hn. revert pre2 E H1. induction pre as [|x pre IH]; intros [|y pre2] E H1; cbn in E.
        - injection E as -> ->. auto.
        - injection E as -> ->. exfalso. apply (H1 y (or_introl eq_refl)). reflexivity.
        - injection E as -> <-. exfalso. cbn in Hn. inversion Hn as [|? ? Hx _]; subst. apply Hx.
          rewrite E2, map_app. apply in_or_app. right. left. reflexivity.
        - injection E as -> E. cbn in Hn. inversion Hn; subst.
          destruct (IH H3 pre2 E (fun x Hx => H1 x (or_intror Hx))) as [-> [-> ->]]. auto. }
      destruct Hs as [<- [<- <-]]. congruence.
  - exfalso. destruct H as [r2 [H1 [H2 H3]]]. assert (r2 = r); [|congruence].
    clear -H1 H2 Hn. rewrite map_app in Hn. cbn in Hn. apply NoDup_remove_2 in Hn. apply in_app_or in H1.
    destruct H1 as [H1|[H1|H1]]; [|congruence|]; exfalso; apply Hn; apply in_or_app; [left|right];
      rewrite <- H2; apply in_map; exact H1.
Qed.

Lemma split_by_row t js r : holds_jobs t js -> In r (t_rows t) -> NoDup (map j_id js) ->
  exists pre post jpre j jpost, t_rows t = pre ++ r :: post /\ js = jpre ++ j :: jpost
    /\ Forall2 represents pre jpre /\ represents r j /\ Forall2 represents post jpost
    /\ NoDup (map r_id (pre ++ r :: post)) /\ (forall x, In x jpre -> j_id x <> j_id j).
Proof.
  intros Ht Hr Hn. pose proof (holds_jobs_ids t js Ht) as Hids.
  apply in_split in Hr. destruct Hr as [pre [post E]]. unfold holds_jobs in Ht. rewrite E in Ht.
  destruct (forall2_split _ _ _ _ _ Ht) as [m1 [j [m2 [-> [H1 [H2 H3]]]]]].
  exists pre, post, m1, j, m2. rewrite <- E, Hids. repeat (split; [first [assumption|reflexivity]|]).
  intros x Hx Ex. rewrite map_app in Hn. cbn in Hn. apply NoDup_remove_2 in Hn. apply Hn, in_or_app. left.
  rewrite <- Ex. apply in_map, Hx.
Qed.

Lemma take_represents now r j : kept_time now -> represents r j -> -2147483648 <= j_attempt j < 2147483647 ->
  exists r', pg_take now r = Some r' /\ represents r' (after_hand_out now j).
Proof.
  intros Hn H Ha. destruct (pg_time_kept now Hn) as [Tn _]. row_fields H. unfold pg_take, int4.
  assert (E : in_i32 (r_attempt r + 1) = true) by (apply in_i32_spec; lia). rewrite E.
  eexists. split; [reflexivity|]. unfold represents; cbn. rewrite Tn, R6.
  split; [assumption|]. split; [constructor|]. repeat (split; [first [assumption|reflexivity]|]). assumption.
Qed.

Lemma load_jobs t js now ex :
  holds_jobs t js -> NoDup (map j_id js) -> kept_time now -> clean ex ->
  (forall j, In j js -> due now ex j -> -2147483648 <= j_attempt j < 2147483647) ->
  let (t', r) := pg_load now ex t in
  t_next t' = t_next t /\
  ((r = Ok None /\ t' = t /\ forall j, In j js -> ~ due now ex j)
   \/ exists j js', due now ex j /\ (forall x, In x js -> due now ex x -> ~ pg_before x j)
        /\ r = Ok (Some (after_hand_out now j)) /\ holds_jobs t' js'
        /\ changed_one (j_id j) j (after_hand_out now j) js js').
Proof.
  intros Ht Hn Hnow Hex Ha. unfold pg_load. apply storable_clean in Hex. rewrite Hex. cbn [negb].
  pose proof (stable_sort_head pg_leb pg_leb_total pg_leb_trans (filter (pg_ready now ex) (t_rows t))) as Hs.
  destruct (stable_sort pg_leb (filter (pg_ready now ex) (t_rows t))) as [|r l].
  - split; [reflexivity|]. left. split; [reflexivity|]. split; [reflexivity|]. intros j Hj Hd.
    destruct (forall2_in_r _ _ _ _ Ht Hj) as [r [Hr Hrj]]. apply (pg_ready_due now ex r j Hnow Hrj) in Hd.
    assert (Hf : In r (filter (pg_ready now ex) (t_rows t))) by (apply filter_In; auto). rewrite Hs in Hf. destruct Hf.
  - destruct Hs as [fpre [fpost [Ef [Hpre Hpost]]]].
    assert (Hin : In r (filter (pg_ready now ex) (t_rows t))) by (rewrite Ef; apply in_or_app; right; left; reflexivity).
    apply filter_In in Hin. destruct Hin as [Hin Hready].
    destruct (split_by_row t js r Ht Hin Hn) as [pre [post [jpre [j [jpost [E [-> [H1 [H2 [H3 [H4 H5]]]]]]]]]]].
    assert (Hd : due now ex j) by (apply (pg_ready_due now ex r j Hnow H2); exact Hready).
    assert (Hj : In j (jpre ++ j :: jpost)) by (apply in_or_app; right; left; reflexivity).
    destruct (take_represents now r j Hnow H2 (Ha j Hj Hd)) as [r' [Et Hr']].
    assert (Hbest : forall x, In x (jpre ++ j :: jpost) -> due now ex x -> ~ pg_before x j).
    { intros x Hx Hdx Hb. destruct (forall2_in_r _ _ _ _ Ht Hx) as [rx [Hrx Hrxj]].
      apply (pg_ready_due now ex rx x Hnow Hrxj) in Hdx.
      assert (Hf : In rx (filter (pg_ready now ex) (t_rows t))) by (apply filter_In; auto).
      assert (Hle : pg_leb r rx = true).
      { rewrite Ef in Hf. apply in_app_or in Hf. destruct Hf as [Hf|[<-|Hf]].
        - specialize (Hpre rx Hf). destruct (pg_leb_total r rx); congruence.
        - destruct (pg_leb_total r r); assumption.
        - auto. }
      apply (pg_leb_before r rx j x H2 Hrxj) in Hb. congruence. }
    rewrite E, (update_rows_one pre r post (pg_take now) r' Et H4), Et.
    apply represents_iff in Hr' as Hr''. rewrite Hr''. cbn [t_next]. split; [reflexivity|]. right.
    exists j, (jpre ++ after_hand_out now j :: jpost). split; [exact Hd|]. split; [exact Hbest|]. split; [reflexivity|].
    split; [apply Forall2_app; [exact H1|constructor; [exact Hr'|exact H3]]|].
    exists jpre, jpost. auto.
Qed.

(** * Enqueue *)

Lemma request_ok_kept e : kept_request e -> pg_request_ok e = true /\ pg_time (eq_scheduled_at e) = eq_scheduled_at e.
Proof.
  intros [H1 [H2 [H3 [H4 H5]]]]. destruct (pg_time_kept _ H4) as [T T'].
  apply storable_clean in H1. apply json_storable_clean in H2, H3. apply storable_all in H5.
  unfold pg_request_ok. rewrite H1, H2, H3, T', H5. auto.
Qed.
Lemma new_row_represents now id key e : kept_time now -> kept_request e -> represents (new_row now id key e) (new_job now id e).
Proof.
  intros Hn He. destruct (pg_time_kept now Hn) as [Tn _]. destruct (request_ok_kept e He) as [_ Te].
  unfold represents; cbn. rewrite Tn, Te. split; [reflexivity|]. split; [constructor|].
  repeat (split; [first [reflexivity|constructor]|]). reflexivity.
Qed.

Lemma insert_jobs t js now key e : holds_jobs t js -> kept_time now -> kept_request e -> t_next t <= 2147483647 ->
  exists r, pg_insert now key e t = (mk_tbl (t_rows t ++ [r]) (t_next t + 1), Ok (t_next t))
    /\ represents r (new_job now (t_next t) e) /\ r_uniqueness_key r = key.
Proof.
  intros Ht Hn He Hb. exists (new_row now (t_next t) key e). unfold pg_insert.
  destruct (request_ok_kept e He) as [-> _]. cbn [negb].
  assert (E : 2147483647 <? t_next t = false) by (apply Z.ltb_ge; lia). rewrite E.
  split; [reflexivity|]. split; [apply new_row_represents; assumption|reflexivity].
Qed.

Lemma in_labels r j l : represents r j -> (existsb (String.eqb (r_status r)) (map label l) = true <-> In (j_status j) l).
Proof.
  intro H. row_fields H. apply spelled_label in R2. rewrite R2, existsb_exists. split.
  - intros [x [Hx E]]. apply in_map_iff in Hx. destruct Hx as [s [<- Hs]]. apply String.eqb_eq, label_inj in E.
    rewrite E. exact Hs.
  - intro Hs. exists (label (j_status j)). split; [apply in_map, Hs|apply String.eqb_refl].
Qed.

Lemma window_kept e uq : eq_criteria e = Some uq -> kept_window e -> (uc_executor uq = true -> clean (eq_executor e)) ->
  exists w, pg_window uq (eq_scheduled_at e) = Some w /\ pg_window_ok uq (eq_executor e) w = true
    /\ forall r j, represents r j -> (pg_conflict uq (eq_executor e) w r = true <-> conflicts_pg e r j).
Proof.
  intros Huq Hw He'. assert (He : negb (uc_executor uq) || storable (eq_executor e) = true).
  { destruct (uc_executor uq); [|reflexivity]. apply storable_clean. auto. }
  unfold kept_window in Hw. specialize (Hw uq).
  unfold pg_window. destruct (uc_duration uq) as [d|] eqn:Ed.
  - destruct (Hw d Huq eq_refl) as [K1 [K2 [D1 D2]]].
    destruct (pg_time_kept _ K1) as [T1 O1]. destruct (pg_time_kept _ K2) as [T2 O2].
    unfold dt_sub, dt_add, in_dt.
    assert (B1 : (dt_min <=? eq_scheduled_at e - d) && (eq_scheduled_at e - d <=? dt_max) = true) by (apply andb_true_iff; rewrite !Z.leb_le; exact D1).
    assert (B2 : (dt_min <=? eq_scheduled_at e + d) && (eq_scheduled_at e + d <=? dt_max) = true) by (apply andb_true_iff; rewrite !Z.leb_le; exact D2).
    rewrite B1, B2. eexists. split; [reflexivity|]. split; [unfold pg_window_ok; rewrite O1, O2, He; reflexivity|].
    intros r j Hr. unfold pg_conflict, conflicts_pg. rewrite T1, T2, !andb_true_iff, (in_labels r j _ Hr).
    row_fields Hr. rewrite orb_true_iff, negb_true_iff, String.eqb_eq, !Z.leb_le, R3, R12. split.
    + intros [[[H1 H2] H3] H4]. exists uq. split; [exact Huq|]. split; [|split; [|split; [exact H1|]]].
      * intros k Hk. rewrite Hk in H2. destruct (r_uniqueness_key r) as [k'|]; [|discriminate]. apply Z.eqb_eq in H2. congruence.
      * intro Hx. destruct H3; congruence.
      * intros d' Hd'. assert (d' = d) as -> by congruence. exact H4.
    + intros [uq' [E [H1 [H2 [H3 H4]]]]]. assert (uq' = uq) as -> by congruence. split; [split; [split; [exact H3|]|]|auto].
      * destruct (uc_key uq) as [k|]; [|reflexivity]. rewrite (H1 k eq_refl). apply Z.eqb_refl.
      * destruct (uc_executor uq); [right; symmetry; auto|left; reflexivity].
  - eexists. split; [reflexivity|]. split; [unfold pg_window_ok; rewrite He; reflexivity|].
    intros r j Hr. unfold pg_conflict, conflicts_pg. rewrite !andb_true_iff, (in_labels r j _ Hr).
    row_fields Hr. rewrite orb_true_iff, negb_true_iff, String.eqb_eq, R3. split.
    + intros [[[H1 H2] H3] _]. exists uq. split; [exact Huq|]. split; [|split; [|split; [exact H1|]]].
      * intros k Hk. rewrite Hk in H2. destruct (r_uniqueness_key r) as [k'|]; [|discriminate]. apply Z.eqb_eq in H2. congruence.
      * intro Hx. destruct H3; congruence.
      * intros d' Hd'. congruence.
    + intros [uq' [E [H1 [H2 [H3 H4]]]]]. assert (uq' = uq) as -> by congruence. split; [split; [split; [exact H3|]|]|reflexivity].
      * destruct (uc_key uq) as [k|]; [|reflexivity]. rewrite (H1 k eq_refl). apply Z.eqb_refl.
      * destruct (uc_executor uq); [right; symmetry; auto|left; reflexivity].
Qed.

(** The rows other than one, and every key, are untouched. *)
Lemma resolve_jobs t js e uq r : holds_jobs t js -> NoDup (map j_id js) -> eq_criteria e = Some uq ->
  kept_request e -> replaces_something e -> In r (t_rows t) ->
  exists j js' t', represents r j /\ pg_resolve uq e r t = Some t' /\ t_next t' = t_next t /\ holds_jobs t' js'
    /\ changed_one (j_id j) j (after_conflict e j) js js'
    /\ map r_uniqueness_key (t_rows t') = map r_uniqueness_key (t_rows t).
Proof.
  intros Ht Hn Huq He Hrep Hin.
  destruct (split_by_row t js r Ht Hin Hn) as [pre [post [jpre [j [jpost [E [-> [H1 [H2 [H3 [H4 H5]]]]]]]]]]].
  exists j.
  assert (Hsame : after_conflict e j = j -> exists js' t', represents r j /\ Some t = Some t' /\ t_next t' = t_next t
     /\ holds_jobs t' js' /\ changed_one (j_id j) j (after_conflict e j) (jpre ++ j :: jpost) js'
     /\ map r_uniqueness_key (t_rows t') = map r_uniqueness_key (t_rows t)).
  { intros ->. exists (jpre ++ j :: jpost), t. split; [exact H2|]. split; [reflexivity|]. split; [reflexivity|].
    split; [exact Ht|]. split; [exists jpre, jpost; auto|reflexivity]. }
  unfold pg_resolve. unfold after_conflict in *. rewrite Huq in *.
  destruct (uc_on_conflict uq) as [|rp] eqn:Ec; [auto|].
  assert (Hst : existsb (fun s => String.eqb (label s) (r_status r)) (rp_for_statuses rp) = true <-> In (j_status j) (rp_for_statuses rp)).
  { pose proof H2 as H2'. row_fields H2'. apply spelled_label in R2. rewrite R2, existsb_exists. split.
    - intros [s [Hs Hl]]. apply String.eqb_eq, label_inj in Hl. rewrite <- Hl. exact Hs.
    - intro Hs. exists (j_status j). split; [exact Hs|apply String.eqb_refl]. }
  destruct (existsb (fun s => String.eqb (label s) (r_status r)) (rp_for_statuses rp)) eqn:Ee.
  2:{ destruct (in_dec _ (j_status j) (rp_for_statuses rp)) as [Hx|Hx]; [apply Hst in Hx; discriminate|auto]. }
  clear Hsame. destruct (in_dec _ (j_status j) (rp_for_statuses rp)) as [_|Hx]; [|exfalso; apply Hx, Hst; reflexivity].
  destruct (request_ok_kept e He) as [Hok Te]. unfold pg_request_ok in Hok. rewrite !andb_true_iff in Hok.
  destruct Hok as [[[[O1 O2] O3] O4] O5].
  assert (Hne : pg_assignments rp e <> []).
  { specialize (Hrep uq rp Huq Ec). unfold pg_assignments.
    destruct (rp_scheduled_at rp); [discriminate|]. destruct (rp_data rp); [discriminate|].
    destruct (rp_metadata rp); [discriminate|]. destruct (rp_priority rp); [discriminate|].
    destruct (rp_max_attempts rp); [discriminate|]. intuition discriminate. }
  assert (Hall : forallb fst (pg_assignments rp e) = true).
  { unfold pg_assignments. rewrite !forallb_app.
    destruct (rp_scheduled_at rp), (rp_data rp), (rp_metadata rp), (rp_priority rp), (rp_max_attempts rp); cbn;
      rewrite ?O2, ?O3, ?O4; reflexivity. }
  set (f := fun r0 => Some (fold_left (fun r1 (a : bool * (row -> row)) => snd a r1) (pg_assignments rp e) r0)).
  assert (Hu : exists r', f r = Some r' /\ r_uniqueness_key r' = r_uniqueness_key r /\ represents r' {| j_id := j_id j; j_status := j_status j; j_executor := j_executor j;
                  j_data := if rp_data rp then eq_data e else j_data j;
                  j_metadata := if rp_metadata rp then eq_metadata e else j_metadata j;
                  j_attempt := j_attempt j;
                  j_max_attempts := if rp_max_attempts rp then eq_max_attempts e else j_max_attempts j;
                  j_priority := if rp_priority rp then eq_priority e else j_priority j;
                  j_tags := j_tags j; j_errors := j_errors j; j_inserted_at := j_inserted_at j;
                  j_scheduled_at := if rp_scheduled_at rp then eq_scheduled_at e else j_scheduled_at j;
                  j_attempted_at := j_attempted_at j; j_completed_at := j_completed_at j;
                  j_cancelled_at := j_cancelled_at j; j_discarded_at := j_discarded_at j |}).
  { exists (fold_left (fun r1 (a : bool * (row -> row)) => snd a r1) (pg_assignments rp e) r). split; [reflexivity|].
    unfold pg_assignments. pose proof H2 as H2'. row_fields H2'. unfold represents.
    destruct (rp_scheduled_at rp), (rp_data rp), (rp_metadata rp), (rp_priority rp), (rp_max_attempts rp); cbn;
      rewrite ?Te; (split; [reflexivity|]); repeat (split; [first [assumption|reflexivity]|]); first [assumption|reflexivity]. }
  destruct Hu as [r' [Hf [Hkey Hr']]].
  exists (jpre ++ {| j_id := j_id j; j_status := j_status j; j_executor := j_executor j;
                  j_data := if rp_data rp then eq_data e else j_data j;
                  j_metadata := if rp_metadata rp then eq_metadata e else j_metadata j;
                  j_attempt := j_attempt j;
                  j_max_attempts := if rp_max_attempts rp then eq_max_attempts e else j_max_attempts j;
                  j_priority := if rp_priority rp then eq_priority e else j_priority j;
                  j_tags := j_tags j; j_errors := j_errors j; j_inserted_at := j_inserted_at j;
                  j_scheduled_at := if rp_scheduled_at rp then eq_scheduled_at e else j_scheduled_at j;
                  j_attempted_at := j_attempted_at j; j_completed_at := j_completed_at j;
                  j_cancelled_at := j_cancelled_at j; j_discarded_at := j_discarded_at j |} :: jpost), (mk_tbl (pre ++ r' :: post) (t_next t)).
  split; [exact H2|]. split.
  { unfold pg_replace. fold f. destruct (pg_assignments rp e) as [|a l] eqn:Ea; [congruence|]. rewrite Hall.
    fold f. rewrite E, (update_rows_one pre r post f r' Hf H4). reflexivity. }
  split; [reflexivity|]. split; [apply Forall2_app; [exact H1|constructor; [exact Hr'|exact H3]]|].
  split; [exists jpre, jpost; auto|]. cbn [t_rows]. rewrite E, !map_app. cbn. rewrite Hkey. reflexivity.
Qed.

Lemma enqueue_jobs ident t js now e :
  holds_jobs t js -> NoDup (map j_id js) -> kept_time now -> kept_request e -> kept_window e -> replaces_something e ->
  t_next t <= 2147483647 ->
  let (t', res) := pg_enqueue ident now e t in
  (exists r j js', In r (t_rows t) /\ represents r j /\ conflicts_pg e r j /\ res = Ok (j_id j)
     /\ t_next t' = t_next t /\ holds_jobs t' js' /\ changed_one (j_id j) j (after_conflict e j) js js'
     /\ map r_uniqueness_key (t_rows t') = map r_uniqueness_key (t_rows t))
  \/ ((forall r j, In r (t_rows t) -> represents r j -> ~ conflicts_pg e r j) /\ res = Ok (t_next t)
      /\ exists r, t' = mk_tbl (t_rows t ++ [r]) (t_next t + 1) /\ represents r (new_job now (t_next t) e)
           /\ r_uniqueness_key r = match eq_criteria e with
                                   | None => None
                                   | Some uq => Some (ident (uc_key uq) (if uc_executor uq then Some (eq_executor e) else None) (uc_statuses uq))
                                   end).
Proof.
  intros Ht Hn Hnow He Hw Hrep Hb. unfold pg_enqueue. destruct (eq_criteria e) as [uq|] eqn:Huq.
  - unfold pg_insert_unique. destruct (window_kept e uq Huq Hw (fun _ => proj1 He)) as [w [-> [-> Hc]]]. cbn [negb].
    destruct (find (pg_conflict uq (eq_executor e) w) (t_rows t)) as [r|] eqn:Ef.
    + apply find_some in Ef. destruct Ef as [Hin Hcf].
      destruct (resolve_jobs t js e uq r Ht Hn Huq He Hrep Hin) as [j [js' [t' [Hr [-> [H1 [H2 [H3 H4]]]]]]]].
      left. exists r, j, js'. split; [exact Hin|]. split; [exact Hr|]. split; [apply (Hc r j Hr), Hcf|].
      split; [f_equal; apply represents_id; exact Hr|]. auto.
    + destruct (insert_jobs t js now (Some (request_ident ident uq e)) e Ht Hnow He Hb) as [r [-> [H1 H2]]].
      right. split.
      * intros r0 j Hin Hr Hx. pose proof (find_none _ _ Ef r0 Hin) as Hno. apply (Hc r0 j Hr) in Hx. congruence.
      * split; [reflexivity|]. exists r. auto.
  - destruct (insert_jobs t js now None e Ht Hnow He Hb) as [r [-> [H1 H2]]]. right. split.
    + intros r0 j _ _ [uq [Hx _]]. congruence.
    + split; [reflexivity|]. exists r. auto.
Qed.

(** * Pruning *)

Lemma scope_rows ps r j : represents r j -> (pg_in_scope ps r = true <-> in_scope ps j).
Proof.
  intro H. row_fields H. apply spelled_label in R2. unfold pg_in_scope, in_scope. rewrite andb_true_iff, R2, String.eqb_eq.
  assert (Hs : label (j_status j) = label (ps_status ps) <-> j_status j = ps_status ps) by (split; [apply label_inj|congruence]).
  rewrite Hs. match goal with |- _ /\ ?A <-> _ /\ ?B => cut (A <-> B); [tauto|] end.
  - rewrite R3. destruct (ps_executors ps) as [l|l].
    + rewrite forallb_forall. split.
      * intros Hx Hi. specialize (Hx _ Hi). rewrite negb_true_iff, String.eqb_neq in Hx. congruence.
      * intros Hx y Hy. rewrite negb_true_iff, String.eqb_neq. congruence.
    + rewrite existsb_exists. split.
      * intros [y [Hy E]]. apply String.eqb_eq in E. congruence.
      * intro Hx. exists (j_executor j). split; [exact Hx|apply String.eqb_refl].
Qed.

Lemma in_doomed rows doomed r : NoDup (map r_id rows) -> (forall x, In x doomed -> In x rows) -> In r rows ->
  (existsb (Z.eqb (r_id r)) (map r_id doomed) = true <-> In r doomed).
Proof.
  intros Hn Hd Hr. rewrite existsb_exists. split.
  - intros [id [Hi E]]. apply Z.eqb_eq in E. subst id. apply in_map_iff in Hi. destruct Hi as [x [E Hx]].
    assert (x = r); [|subst; exact Hx]. clear -Hn Hd Hr E Hx. specialize (Hd x Hx). clear Hx.
    induction rows as [|y rows IH]; [destruct Hr|]. cbn in Hn. inversion Hn as [|? ? Hy Hn']; subst.
    destruct Hd as [<-|Hd], Hr as [<-|Hr]; [reflexivity| | |auto]; exfalso; apply Hy; [rewrite E|rewrite <- E]; apply in_map; assumption.
  - intro H. exists (r_id r). split; [apply in_map, H|apply Z.eqb_refl].
Qed.

Lemma retained_filter {A} (P : A -> Prop) (g : A -> bool) l : (forall x, In x l -> g x = false -> P x) -> retained P l (filter g l).
Proof.
  induction l as [|x l IH]; intro H; cbn; [constructor|]. destruct (g x) eqn:E; constructor; auto with datatypes.
Qed.

(** The rows left by a prune, as jobs. *)
Lemma filter_jobs f l js : Forall2 represents l js ->
  exists js' gone, without js gone js' /\ Forall2 represents (filter f l) js'
    /\ (forall j, In j js' <-> exists r, In r l /\ represents r j /\ f r = true)
    /\ (forall j, In j gone <-> exists r, In r l /\ represents r j /\ f r = false)
    /\ Forall2 represents (filter (fun r => negb (f r)) l) gone.
Proof.
  induction 1 as [|r j l js Hr Hl [js' [gone [H1 [H2 [H3 [H4 H5]]]]]]].
  - exists [], []. split; [constructor|]. split; [constructor|]. split; [|split; [|apply Forall2_nil]];
      intro j; (split; [intros []|intros [r [[] _]]]).
  - cbn. destruct (f r) eqn:E.
    + exists (j :: js'), gone. split; [constructor; exact H1|]. split; [constructor; assumption|]. split; [|split; [|exact H5]].
      * intro x. split.
        -- intros [<-|Hx]; [exists r; auto|]. apply H3 in Hx. destruct Hx as [r' [? ?]]. exists r'. auto.
        -- intros [r' [[<-|Hr'] [Hx Ef]]]; [left; eapply represents_fun; eassumption|right; apply H3; exists r'; auto].
      * intro x. rewrite H4. split.
        -- intros [r' [? ?]]. exists r'. auto.
        -- intros [r' [[<-|Hr'] [Hx Ef]]]; [congruence|exists r'; auto].
    + exists js', (j :: gone). split; [constructor; exact H1|]. split; [assumption|]. split; [|split; [|constructor; assumption]].
      * intro x. rewrite H3. split.
        -- intros [r' [? ?]]. exists r'. auto.
        -- intros [r' [[<-|Hr'] [Hx Ef]]]; [congruence|exists r'; auto].
      * intro x. split.
        -- intros [<-|Hx]; [exists r; auto|]. apply H4 in Hx. destruct Hx as [r' [? ?]]. exists r'. auto.
        -- intros [r' [[<-|Hr'] [Hx Ef]]]; [left; eapply represents_fun; eassumption|right; apply H4; exists r'; auto].
Qed.

Lemma spec_ok_clean ps : clean_spec ps -> pg_spec_ok (ps_executors ps) = true.
Proof. unfold clean_spec, pg_spec_ok. destruct (ps_executors ps); apply storable_all. Qed.

Lemma without_exactly {A} (P : A -> Prop) l gone l' : without l gone l' -> (forall x, In x gone -> P x) ->
  (forall x, In x l' -> ~ P x) -> exactly_removed P l l'.
Proof.
  intros H Hg Hl. split; [|exact Hl]. clear Hl. induction H; constructor; auto with datatypes.
Qed.

Lemma prune_age_jobs t js now ps d : holds_jobs t js -> NoDup (map j_id js) -> clean_spec ps -> kept_cutoff now ps ->
  ps_by ps = MaxAge d ->
  let (t', r) := pg_prune now ps t in
  r = Ok tt /\ t_next t' = t_next t /\ exists js', holds_jobs t' js'
    /\ exactly_removed (fun j => in_scope ps j /\ beyond_age now d (ps_status ps) j) js js'.
Proof.
  intros Ht Hn Hc Hk Hby. unfold pg_prune, pg_doomed. rewrite Hby, (spec_ok_clean ps Hc).
  unfold kept_cutoff in Hk. rewrite Hby in Hk. pose proof (holds_jobs_ids t js Ht) as Hids.
  assert (Hgen : forall old : row -> bool, (forall r j, represents r j -> (old r = true <-> beyond_age now d (ps_status ps) j)) ->
    exists js', holds_jobs (mk_tbl (filter (fun r => negb (existsb (Z.eqb (r_id r)) (map r_id (filter old (filter (pg_in_scope ps) (t_rows t)))))) (t_rows t)) (t_next t)) js'
      /\ exactly_removed (fun j => in_scope ps j /\ beyond_age now d (ps_status ps) j) js js').
  { intros old Hold. set (doomed := filter old (filter (pg_in_scope ps) (t_rows t))).
    assert (Hd : forall r j, In r (t_rows t) -> represents r j ->
      (existsb (Z.eqb (r_id r)) (map r_id doomed) = true <-> in_scope ps j /\ beyond_age now d (ps_status ps) j)).
    { intros r j Hr Hrj. rewrite (in_doomed (t_rows t) doomed r); [|rewrite Hids; exact Hn| |exact Hr].
      - unfold doomed. rewrite !filter_In, (Hold r j Hrj), (scope_rows ps r j Hrj). tauto.
      - intros x Hx. unfold doomed in Hx. rewrite !filter_In in Hx. tauto. }
    destruct (filter_jobs (fun r => negb (existsb (Z.eqb (r_id r)) (map r_id doomed))) _ _ Ht) as [js' [gone [H1 [H2 [H3 [H4 _]]]]]].
    exists js'. split; [exact H2|]. eapply without_exactly; [exact H1| |].
    - intros j Hj. apply H4 in Hj. destruct Hj as [r [Hr [Hrj E]]]. apply negb_false_iff in E. apply (Hd r j Hr Hrj), E.
    - intros j Hj Hp. apply H3 in Hj. destruct Hj as [r [Hr [Hrj E]]]. apply negb_true_iff in E.
      apply (Hd r j Hr Hrj) in Hp. congruence. }
  unfold in_past, dt_sub, dt_add, in_dt.
  assert (Hpast : forall x, kept_time x -> dt_min <= x <= dt_max ->
    ((dt_min <=? x) && (x <=? dt_max) = true) /\ time_ok x = true /\ pg_time x = x).
  { intros x Hx [D1 D2]. destruct (pg_time_kept x Hx) as [T O]. split; [|auto]. apply andb_true_iff. rewrite !Z.leb_le. auto. }
  destruct (ps_status ps) eqn:Es; destruct Hk as [Hk Hr]; destruct (Hpast _ Hk Hr) as [-> [-> ->]];
    (split; [reflexivity|]; split; [reflexivity|]; apply Hgen; intros r j Hrj; row_fields Hrj; cbn [beyond_age];
     rewrite Z.ltb_lt, R12; reflexivity).
Qed.

Lemma perm_of_in {A} (l l' : list A) : NoDup l -> NoDup l' -> (forall x, In x l <-> In x l') -> Permutation l l'.
Proof. apply NoDup_Permutation. Qed.
Lemma map_nodup {A B} (f : A -> B) l : NoDup (map f l) -> NoDup l.
Proof. apply NoDup_map_inv. Qed.
Lemma nodup_sub {A} (l l' : list A) : NoDup (l ++ l') -> NoDup l /\ NoDup l'.
Proof.
  intro H. split.
  - induction l as [|x l IH]; [constructor|]. cbn in H. inversion H as [|? ? Hx Hn]; subst. constructor; [|auto].
    intro Hi. apply Hx, in_or_app. auto.
  - induction l as [|x l IH]; [exact H|]. cbn in H. inversion H; subst. auto.
Qed.

Lemma sorted_app {A} (R : A -> A -> Prop) l l' : StronglySorted R (l ++ l') -> forall a b, In a l -> In b l' -> R a b.
Proof.
  induction l as [|x l IH]; intros H a b Ha Hb; [destruct Ha|]. cbn in H. inversion H as [|? ? Hs Hf]; subst.
  destruct Ha as [<-|Ha]; [|eauto]. rewrite Forall_forall in Hf. apply Hf, in_or_app. auto.
Qed.

Lemma rep_length l js : Forall2 represents l js -> length l = length js.
Proof. induction 1; cbn; congruence. Qed.

Lemma prune_length_jobs t js now ps n : holds_jobs t js -> NoDup (map j_id js) -> clean_spec ps -> 0 <= n ->
  ps_by ps = MaxLength n ->
  let (t', r) := pg_prune now ps t in
  r = Ok tt /\ t_next t' = t_next t /\ exists js' gone kept rest, holds_jobs t' js' /\ without js gone js'
    /\ Permutation js' (kept ++ rest)
    /\ (forall j, In j kept -> in_scope ps j) /\ (forall j, In j gone -> in_scope ps j) /\ (forall j, In j rest -> ~ in_scope ps j)
    /\ Z.of_nat (length kept) <= n /\ (gone <> [] -> Z.of_nat (length kept) = n)
    /\ (forall a b, In a kept -> In b gone -> kept_before (ps_status ps) a b).
Proof.
  intros Ht Hn Hc Hn0 Hby. unfold pg_prune, pg_doomed. rewrite Hby, (spec_ok_clean ps Hc).
  pose proof (holds_jobs_ids t js Ht) as Hids.
  split; [reflexivity|]. split; [reflexivity|]. cbn [t_next].
  set (ord := if in_past (ps_status ps) then fun a b => r_scheduled_at b <=? r_scheduled_at a else fun a b => r_scheduled_at a <=? r_scheduled_at b).
  set (scope := filter (pg_in_scope ps) (t_rows t)).
  destruct (stable_sort_sorted ord) with (l := scope) as [Hs1 Hs2].
  { intros a b. unfold ord. destruct (in_past (ps_status ps)); rewrite !Z.leb_le; lia. }
  { intros a b c. unfold ord. destruct (in_past (ps_status ps)); rewrite !Z.leb_le; lia. }
  set (sorted := stable_sort ord scope) in *. set (k := Z.to_nat n). set (doomed := skipn k sorted).
  assert (Hrn : NoDup (t_rows t)) by (apply (map_nodup r_id); rewrite Hids; exact Hn).
  assert (Hsn : NoDup sorted).
  { eapply Permutation_NoDup; [exact Hs2|]. apply NoDup_filter. exact Hrn. }
  assert (Hsplit : sorted = firstn k sorted ++ doomed) by (symmetry; apply firstn_skipn).
  assert (Hsc : forall r, In r sorted <-> In r (t_rows t) /\ pg_in_scope ps r = true).
  { intro r. unfold scope in Hs2. rewrite <- filter_In. split; apply Permutation_in; [symmetry|]; exact Hs2. }
  assert (Hd : forall r, In r (t_rows t) -> (existsb (Z.eqb (r_id r)) (map r_id doomed) = true <-> In r doomed)).
  { intros r Hr. apply (in_doomed (t_rows t)); [rewrite Hids; exact Hn| |exact Hr].
    intros x Hx. apply Hsc. rewrite Hsplit. apply in_or_app. auto. }
  destruct (filter_jobs (fun r => negb (existsb (Z.eqb (r_id r)) (map r_id doomed))) _ _ Ht) as [js' [gone [H1 [H2 [H3 [H4 H5]]]]]].
  set (left_ := filter (fun r => negb (existsb (Z.eqb (r_id r)) (map r_id doomed))) (t_rows t)) in *.
  assert (Hleft : Permutation left_ (firstn k sorted ++ filter (fun r => negb (pg_in_scope ps r)) (t_rows t))).
  { apply perm_of_in.
    - apply NoDup_filter. exact Hrn.
    - rewrite Hsplit in Hsn. apply nodup_sub in Hsn as [Hfn _]. 
      assert (Hsep : forall r, In r (firstn k sorted) -> ~ In r (filter (fun r => negb (pg_in_scope ps r)) (t_rows t))).
      { intros r Hr Hf. apply filter_In in Hf. destruct Hf as [_ Hf]. assert (Hr' : In r sorted) by (rewrite Hsplit; apply in_or_app; auto).
        apply Hsc in Hr'. destruct Hr' as [_ Hr']. rewrite Hr' in Hf. discriminate. }
      clear -Hfn Hsep Hrn. induction (firstn k sorted) as [|x l IH]; [apply NoDup_filter; exact Hrn|].
      inversion Hfn; subst. cbn. constructor; [|apply IH; [assumption|intros; apply Hsep; right; assumption]].
      intro Hi. apply in_app_or in Hi. destruct Hi as [Hi|Hi]; [contradiction|]. apply (Hsep x (or_introl eq_refl)). exact Hi.
    - intro r. unfold left_. rewrite in_app_iff, !filter_In, !negb_true_iff. split.
      + intros [Hr E]. destruct (pg_in_scope ps r) eqn:Esc; [|auto]. left.
        assert (Hi : In r sorted) by (apply Hsc; auto). rewrite Hsplit in Hi. apply in_app_or in Hi.
        destruct Hi as [Hi|Hi]; [exact Hi|]. apply (Hd r Hr) in Hi. congruence.
      + intros [Hi|[Hr E]].
        * assert (Hr : In r sorted) by (rewrite Hsplit; apply in_or_app; auto). apply Hsc in Hr. destruct Hr as [Hr _].
          split; [exact Hr|]. destruct (existsb _ _) eqn:Ex; [|reflexivity]. apply (Hd r Hr) in Ex.
          exfalso. rewrite Hsplit in Hsn. clear -Hsn Hi Ex. induction (firstn k sorted) as [|x l IH]; [destruct Hi|].
          cbn in Hsn. inversion Hsn as [|? ? Hx Hn]; subst. destruct Hi as [<-|Hi]; [|auto]. apply Hx, in_or_app. auto.
        * split; [exact Hr|]. destruct (existsb _ _) eqn:Ex; [|reflexivity]. apply (Hd r Hr) in Ex.
          assert (Hi : In r sorted) by (rewrite Hsplit; apply in_or_app; auto). apply Hsc in Hi. destruct Hi. congruence. }
  destruct (represents_perm _ _ _ Hleft H2) as [js2 [Hj2 Hp2]]. apply Forall2_app_inv_l in Hj2.
  destruct Hj2 as [kept [rest [Hkept [Hrest ->]]]].
  exists js', gone, kept, rest. split; [exact H2|]. split; [exact H1|]. split; [exact Hp2|].
  assert (Hks : forall j, In j kept -> exists r, In r (firstn k sorted) /\ represents r j).
  { intros j Hj. destruct (forall2_in_r _ _ _ _ Hkept Hj) as [r [? ?]]. eauto. }
  assert (Hgs : forall j, In j gone -> exists r, In r doomed /\ represents r j).
  { intros j Hj. apply H4 in Hj. destruct Hj as [r [Hr [Hrj E]]]. apply negb_false_iff in E. exists r. split; [apply (Hd r Hr), E|exact Hrj]. }
  split. { intros j Hj. destruct (Hks j Hj) as [r [Hr Hrj]]. apply (scope_rows ps r j Hrj). apply Hsc. rewrite Hsplit. apply in_or_app. auto. }
  split. { intros j Hj. destruct (Hgs j Hj) as [r [Hr Hrj]]. apply (scope_rows ps r j Hrj). apply Hsc. rewrite Hsplit. apply in_or_app. auto. }
  split. { intros j Hj Hsj. destruct (forall2_in_r _ _ _ _ Hrest Hj) as [r [Hr Hrj]]. apply filter_In in Hr. destruct Hr as [_ Hr].
           apply (scope_rows ps r j Hrj) in Hsj. rewrite Hsj in Hr. discriminate. }
  assert (Hlen : length kept = length (firstn k sorted)) by (symmetry; eapply rep_length; exact Hkept).
  split. { rewrite Hlen, firstn_length. unfold k. lia. }
  split.
  { intro Hg. rewrite Hlen, firstn_length. destruct gone as [|g gone]; [congruence|].
    destruct (Hgs g (or_introl eq_refl)) as [r [Hr _]]. unfold doomed in Hr.
    assert ((k < length sorted)%nat); [|unfold k in *; lia].
    destruct (Nat.lt_ge_cases k (length sorted)) as [|Hge]; [assumption|]. rewrite skipn_all2 in Hr by exact Hge. destruct Hr. }
  intros a b Ha Hb. destruct (Hks a Ha) as [ra [Hra Hraj]]. destruct (Hgs b Hb) as [rb [Hrb Hrbj]].
  rewrite Hsplit in Hs1. pose proof (sorted_app _ _ _ Hs1 ra rb Hra Hrb) as Hle. cbn in Hle. unfold ord, in_past in Hle.
  row_fields Hraj. row_fields Hrbj. unfold kept_before. destruct (ps_status ps); rewrite Z.leb_le in Hle; unfold time in *; lia.
Qed.
