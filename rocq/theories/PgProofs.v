(** Lemmas about rows, single-row updates and stored values of the Postgres model. *)
From Coq Require Import Ascii Permutation Sorted.
From Verif Require Import Base Chrono Types TypesProofs Query QueryProofs WhereProofs Memory MemSpec MemProofs
  PgRow PgQuery Pg PgSpec.

Global Arguments pg_time _ : simpl never.
Global Arguments bind_time _ : simpl never.
Global Arguments time_ok _ : simpl never.
Global Arguments int4 _ : simpl never.
Global Arguments Z.modulo _ _ : simpl never.

(** * Values *)

Lemma storable_clean s : storable s = true <-> clean s.
Proof.
  unfold clean. induction s as [|a s IH]; cbn.
  - split; [intros _ n; destruct n; discriminate | reflexivity].
  - rewrite andb_true_iff, negb_true_iff, Ascii.eqb_neq, IH. split.
    + intros [Ha Hs] n. destruct n as [|n]; [congruence | apply Hs].
    + intro H. split; [specialize (H O); cbn in H; congruence | intro n; apply (H (S n))].
Qed.
Lemma storable_all l : forallb storable l = true <-> Forall clean l.
Proof.
  induction l as [|s l IH]; cbn; [split; [constructor|reflexivity]|].
  rewrite andb_true_iff, storable_clean, IH. split; [intros [? ?]; constructor; auto | intro H; inversion H; auto].
Qed.
Lemma json_storable_clean : forall v, json_storable v = true <-> clean_json v.
Proof.
  fix IH 1. intros [|b|n|s|l|l]; cbn; try tauto.
  - apply storable_clean.
  - induction l as [|v l IHl]; cbn; [tauto|]. rewrite andb_true_iff, IHl, (IH v). reflexivity.
  - induction l as [|[k v] l IHl]; cbn; [tauto|]. rewrite !andb_true_iff, IHl, (IH v), storable_clean. tauto.
Qed.

Lemma pg_time_kept t : kept_time t -> pg_time t = t /\ time_ok t = true.
Proof.
  intros [[k ->] Hk].
  assert (E : pg_time (k * 1000) = k * 1000).
  { unfold pg_time, pg_epoch, ns_per_s.
    replace (k * 1000 - 946684800 * 1000000000) with ((k - 946684800000000) * 1000) by lia.
    rewrite Z.quot_mul by lia. lia. }
  split; [exact E|]. unfold time_ok, bind_time. rewrite E.
  assert (H : pg_first <=? k * 1000 = true) by (unfold pg_first, pg_epoch, ns_per_s; apply Z.leb_le; lia).
  rewrite H. reflexivity.
Qed.
Lemma pg_time_mono a b : a <= b -> pg_time a <= pg_time b.
Proof. intro H. unfold pg_time. pose proof (Z.quot_le_mono (a - pg_epoch) (b - pg_epoch) 1000). lia. Qed.

Lemma spelled_label s l : spelled s l <-> l = label s.
Proof. split; [intros []; reflexivity | intros ->; destruct s; constructor]. Qed.
Lemma label_inj a b : label a = label b -> a = b.
Proof. destruct a, b; cbn; intro H; try reflexivity; discriminate. Qed.
Lemma status_of_label_spec l s : status_of_label l = Some s <-> spelled s l.
Proof.
  rewrite spelled_label. split.
  - unfold status_of_label. repeat match goal with |- context [String.eqb l ?x] =>
      destruct (String.eqb_spec l x) as [->|]; [intro H; injection H as <-; reflexivity|] end.
    discriminate.
  - intros ->. destruct s; reflexivity.
Qed.
Lemma label_eqb a b : String.eqb (label a) (label b) = status_eqb a b.
Proof. destruct a, b; reflexivity. Qed.

Lemma worded_iff e s : worded e s <-> error_text e = s /\ error_of_text s = e.
Proof.
  split.
  - intros [| | |s0 ? ? ?]; cbn; try (split; reflexivity). split; [reflexivity|]. unfold error_of_text. clear s.
    repeat match goal with |- context [String.eqb ?y ?x] => destruct (String.eqb_spec y x); [contradiction|] end. reflexivity.
  - intros [<- H]. destruct e as [| | |s]; cbn in *; try constructor.
    all: intro Hs; rewrite Hs in H; cbn in H; discriminate.
Qed.
Lemma worded_fun e s s' : worded e s -> worded e s' -> s = s'.
Proof. rewrite !worded_iff. intros [H _] [H' _]. congruence. Qed.
Lemma worded_text e s : worded e s -> error_text e = s.
Proof. rewrite worded_iff. tauto. Qed.

Lemma tells_iff se je : tells se je <-> read_error se = Some je.
Proof.
  unfold tells, read_error. destruct (in_u16 (se_attempt se)) eqn:E.
  - apply in_u16_spec in E. split.
    + intros [_ [H1 [H2 [H3 H4]]]]. apply worded_iff in H2. destruct H2 as [_ H2]. destruct je; cbn in *. congruence.
    + intro H. injection H as <-. cbn. repeat split; try lia.
      unfold error_of_text. repeat match goal with |- context [String.eqb ?y ?x] =>
        destruct (String.eqb_spec y x) as [->|]; [constructor|] end. constructor; auto.
  - split; [|discriminate]. intros [H _]. apply in_u16_spec in H. congruence.
Qed.
Lemma errors_iff l je : Forall2 tells l je <-> collect (map read_error l) = Some je.
Proof.
  revert je. induction l as [|se l IH]; intro je; cbn.
  - split; [intro H; inversion H; reflexivity | intro H; injection H as <-; constructor].
  - split.
    + intro H. inversion H as [|? x ? xs H1 H2]; subst. apply tells_iff in H1. rewrite H1.
      apply IH in H2. rewrite H2. reflexivity.
    + destruct (read_error se) as [x|] eqn:E; [|discriminate]. apply tells_iff in E.
      destruct (collect (map read_error l)) as [xs|]; [|discriminate]. intro H. injection H as <-.
      constructor; [exact E | apply IH; reflexivity].
Qed.

Lemma represents_iff r j : represents r j <-> job_of_row r = Ok j.
Proof.
  unfold represents, job_of_row. split.
  - intros [H1 [H2 [H3 [H4 [H5 [H6 [H7 [H8 [H9 [H10 [H11 [H12 [H13 [H14 [H15 H16]]]]]]]]]]]]]]].
    apply status_of_label_spec in H2. rewrite H2. apply errors_iff in H10. rewrite H10.
    destruct j; cbn in *. rewrite H1, H3, H4, H5, H6, H7, H8, H9, H11, H12, H13, H14, H15, H16. reflexivity.
  - destruct (status_of_label (r_status r)) as [st|] eqn:E; [|discriminate].
    destruct (collect (map read_error (r_errors r))) as [es|] eqn:E2; [|discriminate].
    intro H. injection H as <-. cbn. apply status_of_label_spec in E. apply errors_iff in E2. auto 20.
Qed.
Lemma represents_fun r j j' : represents r j -> represents r j' -> j = j'.
Proof. rewrite !represents_iff. congruence. Qed.
Lemma represents_id r j : represents r j -> r_id r = j_id j.
Proof. intros [H _]. exact H. Qed.

Lemma read_rows_represents l js : Forall2 represents l js -> read_rows l = Ok js.
Proof.
  induction 1 as [|r j l js H _ IH]; [reflexivity|]. cbn. apply represents_iff in H. rewrite H, IH. reflexivity.
Qed.

(** * Updating by id *)

Lemma update_rows_spec id f l : NoDup (map r_id l) ->
  match update_rows id f l with
  | None => exists r, In r l /\ r_id r = id /\ f r = None
  | Some (l', n) =>
      (n = 0 /\ l' = l /\ forall r, In r l -> r_id r <> id)
      \/ (n = 1 /\ exists pre r r' post, l = pre ++ r :: post /\ l' = pre ++ r' :: post /\ r_id r = id
            /\ f r = Some r' /\ (forall x, In x pre -> r_id x <> id) /\ (forall x, In x post -> r_id x <> id))
  end.
Proof.
  induction l as [|r l IH]; intro Hn; cbn; [left; auto|].
  inversion Hn as [|? ? Hr Hn']; subst. specialize (IH Hn').
  destruct (update_rows id f l) as [[l' n]|].
  - destruct (Z.eqb_spec (r_id r) id) as [E|E].
    + assert (Hl : n = 0 /\ l' = l /\ forall r, In r l -> r_id r <> id).
      { destruct IH as [IH|[_ [pre [r0 [r1 [post [-> [_ [E0 _]]]]]]]]]; [exact IH|].
        exfalso. apply Hr. rewrite E, <- E0. apply in_map, in_or_app. right. left. reflexivity. }
      destruct Hl as [-> [-> Hl]]. destruct (f r) as [r'|] eqn:Ef; [|exists r; auto].
      right. split; [reflexivity|]. exists [], r, r', l. cbn. split; [reflexivity|]. split; [reflexivity|].
      split; [exact E|]. split; [exact Ef|]. split; [intros ? []|exact Hl].
    + destruct IH as [[-> [-> IH]]|[-> [pre [r0 [r1 [post [-> [-> [E0 [E1 [H1 H2]]]]]]]]]]].
      * left. split; [reflexivity|]. split; [reflexivity|]. intros x [<-|Hx]; auto.
      * right. split; [reflexivity|]. exists (r :: pre), r0, r1, post. cbn. repeat (split; [reflexivity || assumption|]).
        split; [|exact H2]. intros x [<-|Hx]; auto.
  - destruct IH as [r0 [H1 [H2 H3]]]. destruct (r_id r =? id) eqn:E; exists r0; auto.
Qed.

Lemma holds_jobs_ids t js : holds_jobs t js -> map r_id (t_rows t) = map j_id js.
Proof.
  unfold holds_jobs. induction 1 as [|r j l l' H _ IH]; [reflexivity|]. cbn. rewrite IH, (represents_id r j H). reflexivity.
Qed.

Lemma forall2_split {A B} (P : A -> B -> Prop) l1 x l2 l : Forall2 P (l1 ++ x :: l2) l ->
  exists m1 y m2, l = m1 ++ y :: m2 /\ Forall2 P l1 m1 /\ P x y /\ Forall2 P l2 m2.
Proof.
  intro H. apply Forall2_app_inv_l in H. destruct H as [m1 [m [H1 [H2 ->]]]].
  inversion H2 as [|? y ? m2 H3 H4]; subst. exists m1, y, m2. auto.
Qed.

(** One accepted single-row statement on a table of known jobs. *)
Lemma update_by_id_jobs t js id f g :
  holds_jobs t js -> NoDup (map j_id js) ->
  (forall r j, represents r j -> j_id j = id -> In j js -> exists r', f r = Some r' /\ represents r' (g j)) ->
  let (t', res) := pg_update_by_id true id f t in
  t_next t' = t_next t /\
  ((res = Ok tt /\ exists j js', holds_jobs t' js' /\ changed_one id j (g j) js js')
   \/ (res = Err (JobNotFound id) /\ t' = t /\ forall j, In j js -> j_id j <> id)).
Proof.
  intros Ht Hn Hf. unfold pg_update_by_id. cbn [negb].
  pose proof (holds_jobs_ids t js Ht) as Hids.
  pose proof (update_rows_spec id f (t_rows t)) as Hu. rewrite Hids in Hu. specialize (Hu Hn).
  destruct (update_rows id f (t_rows t)) as [[l' n]|].
  - destruct Hu as [[-> [-> Hno]]|[-> [pre [r [r' [post [E1 [-> [E3 [E4 [E5 E6]]]]]]]]]]]; cbn.
    + split; [reflexivity|]. right. split; [reflexivity|]. split; [destruct t; reflexivity|].
      intros j Hj E. assert (Hi : In (j_id j) (map j_id js)) by (apply in_map; exact Hj).
      rewrite <- Hids in Hi. apply in_map_iff in Hi. destruct Hi as [r [E' Hr]]. apply (Hno r Hr). congruence.
    + split; [reflexivity|]. left. split; [reflexivity|]. unfold holds_jobs in *. rewrite E1 in Ht.
      destruct (forall2_split _ _ _ _ _ Ht) as [m1 [j [m2 [-> [H1 [H2 H3]]]]]].
      pose proof (represents_id r j H2) as Hrj.
      destruct (Hf r j H2) as [r'' [Hf1 Hf2]]; [congruence | apply in_or_app; right; left; reflexivity|].
      assert (r'' = r') as -> by congruence.
      exists j, (m1 ++ g j :: m2). split.
      * cbn. apply Forall2_app; [exact H1|]. constructor; [exact Hf2|exact H3].
      * exists m1, m2. split; [reflexivity|]. split; [reflexivity|]. split; [congruence|].
        intros x Hx E. clear -Hn Hx E Hrj E3. rewrite map_app in Hn. cbn in Hn. apply NoDup_remove_2 in Hn.
        apply Hn. apply in_or_app. left. rewrite <- Hrj, E3, <- E. apply in_map. exact Hx.
  - exfalso. destruct Hu as [r [H1 [H2 H3]]]. unfold holds_jobs in Ht.
    assert (Hj : exists j, In j js /\ represents r j).
    { clear -Ht H1. induction Ht as [|a b l1 l2 Hab _ IH]; [destruct H1|].
      destruct H1 as [->|H1]; [exists b; cbn; auto|]. destruct (IH H1) as [j [? ?]]. exists j. cbn. auto. }
    destruct Hj as [j [Hj1 Hj2]]. pose proof (represents_id r j Hj2).
    destruct (Hf r j Hj2) as [r' [E _]]; congruence.
Qed.

(** Reading rows after the assignments of the code. *)
Ltac row_fields H :=
  destruct H as [?R1 [?R2 [?R3 [?R4 [?R5 [?R6 [?R7 [?R8 [?R9 [?R10 [?R11 [?R12 [?R13 [?R14 [?R15 ?R16]]]]]]]]]]]]]]].

Lemma tells_new now e r s : 0 <= r_attempt r <= 65535 -> worded (ee_type e) s -> pg_time now = now ->
  tells (pg_error now e r) (mk_job_error (r_attempt r mod 65536) (ee_type e) (ee_message e) now).
Proof.
  intros Ha Hw Hn. unfold tells, pg_error; cbn. rewrite Z.mod_small by lia.
  split; [exact Ha|]. split; [reflexivity|]. rewrite (worded_text _ _ Hw). auto.
Qed.

Lemma kept_error_ok e : kept_error e -> pg_error_ok e = true /\ exists s, worded (ee_type e) s.
Proof.
  intros [H1 [s [H2 H3]]]. unfold pg_error_ok. rewrite (worded_text _ _ H2).
  apply storable_clean in H1, H3. rewrite H1, H3. eauto.
Qed.

Definition ready_for (o : mop) (j : job) : Prop :=
  (adds_error o = true -> 0 <= j_attempt j <= 65535)
  /\ -2147483648 < j_attempt j < 2147483647 /\ -2147483648 < j_max_attempts j < 2147483647.

Lemma report_jobs ident t js now o id f :
  holds_jobs t js -> NoDup (map j_id js) -> report_effect now o = Some (id, f) ->
  kept_time now -> kept_report o -> (forall j, In j js -> j_id j = id -> ready_for o j) ->
  let (t', r) := pg_step ident now t o in
  t_next t' = t_next t /\
  ((r = RUnit (Ok tt) /\ exists j js', holds_jobs t' js' /\ changed_one id j (f j) js js')
   \/ (r = RUnit (Err (JobNotFound id)) /\ t' = t /\ forall j, In j js -> j_id j <> id)).
Proof.
  intros Ht Hn He Hnow Hk Hr. destruct (pg_time_kept now Hnow) as [Tn Tok].
  assert (Hgen : forall g, f = g -> forall ok h, ok = true ->
     (forall r j, represents r j -> j_id j = id -> In j js -> exists r', h r = Some r' /\ represents r' (g j)) ->
     let (t', r0) := pg_update_by_id ok id h t in let (t', r) := (t', RUnit r0) in
     t_next t' = t_next t /\
     ((r = RUnit (Ok tt) /\ exists j js', holds_jobs t' js' /\ changed_one id j (f j) js js')
      \/ (r = RUnit (Err (JobNotFound id)) /\ t' = t /\ forall j, In j js -> j_id j <> id))).
  { intros g -> ok h -> Hh. pose proof (update_by_id_jobs t js id h g Ht Hn Hh) as H.
    destruct (pg_update_by_id true id h t) as [t' r0]. destruct H as [H0 [[-> H]|[-> H]]]; split; auto. }
  destruct o; cbn in He; try discriminate; injection He as -> <-; cbn [pg_step];
    unfold pg_complete, pg_retryable, pg_discarded, pg_cancelled, pg_snoozed, pg_rerun;
    match goal with |- context [pg_update_by_id ?ok ?id ?h t] => specialize (Hgen _ eq_refl ok h) end;
    cbn in Hk.
  - match type of Hgen with ?A -> ?B -> _ => assert (HA : A); [reflexivity|assert (HB : B)] end.
    { intros r j Hrj _ Hj. eexists. split; [reflexivity|]. row_fields Hrj. unfold represents; cbn. rewrite Tn. repeat (split; [first [assumption|constructor]|]). assumption. }
    specialize (Hgen HA HB). destruct (pg_update_by_id _ _ _ t). exact Hgen.
  - destruct Hk as [Hkt Hke]. destruct (pg_time_kept _ Hkt) as [Tt Ttok]. destruct (kept_error_ok _ Hke) as [Ke [s Hs]].
    match type of Hgen with ?A -> ?B -> _ => assert (HA : A); [rewrite Ke, Ttok; reflexivity|assert (HB : B)] end.
    { intros r j Hrj Hid Hj. destruct (Hr j Hj Hid) as [Hra _]. cbn in Hra. specialize (Hra eq_refl). eexists. split; [reflexivity|].
      row_fields Hrj. unfold represents; cbn. rewrite Tt. repeat (split; [first [assumption|constructor]|]).
      split; [|repeat (split; [first [assumption|reflexivity]|]); assumption].
      apply Forall2_app; [assumption|]. constructor; [|constructor]. rewrite <- R6 in *. eapply tells_new; eassumption. }
    specialize (Hgen HA HB). destruct (pg_update_by_id _ _ _ t). exact Hgen.
  - destruct (kept_error_ok _ Hk) as [Ke [s Hs]].
    match type of Hgen with ?A -> ?B -> _ => assert (HA : A); [exact Ke|assert (HB : B)] end.
    { intros r j Hrj Hid Hj. destruct (Hr j Hj Hid) as [Hra _]. cbn in Hra. specialize (Hra eq_refl). eexists. split; [reflexivity|].
      row_fields Hrj. unfold represents; cbn. rewrite Tn. repeat (split; [first [assumption|constructor]|]).
      split; [|repeat (split; [first [assumption|reflexivity]|]); reflexivity].
      apply Forall2_app; [assumption|]. constructor; [|constructor]. rewrite <- R6 in *. eapply tells_new; eassumption. }
    specialize (Hgen HA HB). destruct (pg_update_by_id _ _ _ t). exact Hgen.
  - destruct (kept_error_ok _ Hk) as [Ke [s Hs]].
    match type of Hgen with ?A -> ?B -> _ => assert (HA : A); [exact Ke|assert (HB : B)] end.
    { intros r j Hrj Hid Hj. destruct (Hr j Hj Hid) as [Hra _]. cbn in Hra. specialize (Hra eq_refl). eexists. split; [reflexivity|].
      row_fields Hrj. unfold represents; cbn. rewrite Tn. repeat (split; [first [assumption|constructor]|]).
      split; [|repeat (split; [first [assumption|reflexivity]|]); assumption].
      apply Forall2_app; [assumption|]. constructor; [|constructor]. rewrite <- R6 in *. eapply tells_new; eassumption. }
    specialize (Hgen HA HB). destruct (pg_update_by_id _ _ _ t). exact Hgen.
  - destruct (pg_time_kept _ Hk) as [Tt Ttok].
    match type of Hgen with ?A -> ?B -> _ => assert (HA : A); [exact Ttok|assert (HB : B)] end.
    { intros r j Hrj Hid Hj. destruct (Hr j Hj Hid) as [_ [Hra _]]. row_fields Hrj. rewrite R6.
      unfold int4. assert (E : in_i32 (j_attempt j - 1) = true) by (apply in_i32_spec; lia). rewrite E.
      eexists. split; [reflexivity|]. unfold represents; cbn. rewrite Tt. split; [assumption|].
      split; [|repeat (split; [first [assumption|reflexivity]|]); assumption].
      destruct (Z.eq_dec (j_attempt j) 1) as [->|Hne]; [constructor|].
      apply Z.eqb_neq in Hne. rewrite Hne. constructor. }
    specialize (Hgen HA HB). destruct (pg_update_by_id _ _ _ t). exact Hgen.
  - match type of Hgen with ?A -> ?B -> _ => assert (HA : A); [exact Tok|assert (HB : B)] end.
    { intros r j Hrj Hid Hj. destruct (Hr j Hj Hid) as [_ [_ Hra]]. row_fields Hrj. rewrite R7, R6.
      unfold int4. assert (E : in_i32 (j_max_attempts j + 1) = true) by (apply in_i32_spec; lia). rewrite E.
      eexists. split; [reflexivity|]. unfold represents; cbn. rewrite Tn. split; [assumption|].
      split; [|repeat (split; [first [assumption|reflexivity]|]); reflexivity].
      destruct (Z.eq_dec (j_attempt j) 1) as [->|Hne]; [constructor|].
      apply Z.eqb_neq in Hne. rewrite Hne. constructor. }
    specialize (Hgen HA HB). destruct (pg_update_by_id _ _ _ t). exact Hgen.
Qed.

Lemma edit_jobs ident t js now j' :
  holds_jobs t js -> NoDup (map j_id js) -> kept_job j' ->
  let (t', r) := pg_step ident now t (OpUpdate j') in
  t_next t' = t_next t /\
  ((r = RUnit (Ok tt) /\ exists j js', holds_jobs t' js' /\ changed_one (j_id j') j (edited j' j) js js')
   \/ (r = RUnit (Err (JobNotFound (j_id j'))) /\ t' = t /\ forall j, In j js -> j_id j <> j_id j')).
Proof.
  intros Ht Hn [K1 [K2 [K3 K4]]]. cbn [pg_step]. unfold pg_update.
  apply json_storable_clean in K1, K2. apply storable_all in K3. destruct (pg_time_kept _ K4) as [Tt Ttok].
  rewrite K1, K2, K3, Ttok. cbn [andb].
  match goal with |- context [pg_update_by_id true ?id ?h t] =>
    pose proof (update_by_id_jobs t js id h (edited j') Ht Hn) as H; assert (HB : forall r j, represents r j -> j_id j = id -> In j js -> exists r', h r = Some r' /\ represents r' (edited j' j)) end.
  { intros r j Hrj Hid Hj. eexists. split; [reflexivity|]. row_fields Hrj. unfold represents; cbn. rewrite Tt. auto 20. }
  specialize (H HB). destruct (pg_update_by_id _ _ _ t) as [t' r0]. destruct H as [H0 [[-> H]|[-> H]]]; split; auto.
Qed.
