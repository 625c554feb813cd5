(** Lemmas about single operations of the in-memory backend. *)
From Verif Require Import Base Chrono Types TypesProofs Query Memory MemSpec QueryProofs.

(** * Lists *)

Lemma split_first_some {A} (p : A -> bool) l pre x post :
  split_first p l = Some (pre, x, post) ->
  l = pre ++ x :: post /\ p x = true /\ (forall y, In y pre -> p y = false).
Proof.
  revert pre x post. induction l as [|a l IH]; cbn; intros pre x post H; [discriminate|].
  destruct (p a) eqn:Ea.
  - injection H as <- <- <-. repeat split; auto. intros y [].
  - destruct (split_first p l) as [[[pre' y'] post']|] eqn:E; [|discriminate].
    injection H as <- <- <-. destruct (IH _ _ _ eq_refl) as [H1 [H2 H3]].
    split; [cbn; congruence|]. split; [exact H2|]. intros y [<-|Hy]; auto.
Qed.

Lemma split_first_none {A} (p : A -> bool) l :
  split_first p l = None <-> (forall y, In y l -> p y = false).
Proof.
  induction l as [|a l IH]; cbn.
  - split; [intros _ y [] | reflexivity].
  - destruct (p a) eqn:Ea.
    + split; [discriminate|]. intro H. rewrite (H a (or_introl eq_refl)) in Ea. discriminate.
    + destruct (split_first p l) as [[[pre' y'] post']|] eqn:E.
      * split; [discriminate|]. intro H.
        assert (Hn : Some (pre', y', post') = None)
          by (apply IH; intros y Hy; apply H; right; exact Hy). discriminate Hn.
      * split; [|reflexivity]. intros _ y [<-|Hy]; [exact Ea|]. apply IH; auto.
Qed.

Lemma split_first_exists {A} (p : A -> bool) l x :
  In x l -> p x = true -> exists pre y post, split_first p l = Some (pre, y, post).
Proof.
  intros Hx Hp. destruct (split_first p l) as [[[pre y] post]|] eqn:E.
  - exists pre, y, post. reflexivity.
  - rewrite split_first_none in E. rewrite (E x Hx) in Hp. discriminate.
Qed.

Lemma number_in {A} (l : list A) i n x :
  In (n, x) (number i l) <-> exists k, (n = i + k)%nat /\ nth_error l k = Some x.
Proof.
  revert i. induction l as [|a l IH]; intro i; cbn.
  - split; [intros []|]. intros [k [_ H]]. destruct k; discriminate.
  - rewrite IH. split.
    + intros [H|[k [Hk Hn]]].
      * injection H as <- <-. exists 0%nat. split; [lia|reflexivity].
      * exists (S k). split; [lia|exact Hn].
    + intros [[|k] [Hk Hn]].
      * cbn in Hn. injection Hn as <-. left. f_equal. lia.
      * right. exists k. split; [lia|exact Hn].
Qed.

Lemma set_nth_split {A} (pre : list A) x post y :
  set_nth (length pre) y (pre ++ x :: post) = pre ++ y :: post.
Proof. induction pre as [|a pre IH]; cbn; congruence. Qed.

Lemma set_nth_map_length {A} n (x : A) l : length (set_nth n x l) = length l.
Proof. revert n. induction l as [|a l IH]; intros [|n]; cbn; auto. Qed.

(** * Stable sorting: the head is minimal and the first among its equals *)

Section StableHead.
  Context {A : Type}.
  Variable leb : A -> A -> bool.
  Hypothesis total : forall a b, leb a b = true \/ leb b a = true.
  Hypothesis trans : forall a b c, leb a b = true -> leb b c = true -> leb a c = true.

  Lemma stable_sort_head l :
    match stable_sort leb l with
    | [] => l = []
    | h :: _ => exists pre post, l = pre ++ h :: post
        /\ (forall x, In x pre -> leb x h = false) /\ (forall x, In x post -> leb h x = true)
    end.
  Proof.
    induction l as [|a l IH]; cbn; [reflexivity|].
    fold (stable_sort leb l). destruct (stable_sort leb l) as [|h t]; cbn.
    - subst l. exists [], []. repeat split; auto; intros x [].
    - destruct IH as [pre [post [-> [Hpre Hpost]]]]. destruct (leb a h) eqn:E.
      + exists [], (pre ++ h :: post). repeat split; [intros x []|].
        intros x Hx. apply in_app_or in Hx. destruct Hx as [Hx|[<-|Hx]].
        * destruct (total x a) as [H|H]; [|exact H].
          pose proof (trans _ _ _ H E) as H'. rewrite (Hpre x Hx) in H'. discriminate.
        * exact E.
        * exact (trans _ _ _ E (Hpost x Hx)).
      + exists (a :: pre), post. repeat split; [|exact Hpost].
        intros x [<-|Hx]; [exact E | exact (Hpre x Hx)].
  Qed.
End StableHead.

Lemma load_leb_total a b : load_leb a b = true \/ load_leb b a = true.
Proof.
  unfold load_leb.
  destruct (Z.compare_spec (j_scheduled_at a) (j_scheduled_at b)),
           (Z.compare_spec (j_scheduled_at b) (j_scheduled_at a)); try lia; auto.
  destruct (Z.compare_spec (j_priority a) (j_priority b)),
           (Z.compare_spec (j_priority b) (j_priority a)); try lia; auto.
Qed.

Lemma load_leb_iff a b : load_leb a b = true <-> ~ strictly_before b a.
Proof.
  unfold load_leb, strictly_before.
  destruct (Z.compare_spec (j_scheduled_at a) (j_scheduled_at b)); [|split; lia|split; [discriminate|lia]].
  destruct (Z.compare_spec (j_priority a) (j_priority b)); split; try lia; try discriminate.
Qed.

Lemma load_leb_false a b : load_leb a b = false <-> strictly_before b a.
Proof.
  unfold load_leb, strictly_before.
  destruct (Z.compare_spec (j_scheduled_at a) (j_scheduled_at b)); [|split; [discriminate|lia]|split; [lia|reflexivity]].
  destruct (Z.compare_spec (j_priority a) (j_priority b)); split; try lia; try discriminate; auto.
Qed.

Lemma load_leb_trans a b c : load_leb a b = true -> load_leb b c = true -> load_leb a c = true.
Proof. rewrite !load_leb_iff. unfold strictly_before. lia. Qed.

(** * Hand-out *)

Lemma load_filter_due now ex k : load_filter now ex k = true <-> due now ex (kj_job k).
Proof.
  unfold load_filter, due, waiting, dt_diff, ns_per_ms.
  rewrite !andb_true_iff, orb_true_iff, !status_eqb_eq, String.eqb_eq, Z.ltb_lt.
  intuition lia.
Qed.

Lemma filter_number_split {A} (p : A -> bool) (l : list A) i pre n x post :
  filter (fun ik => p (snd ik)) (number i l) = pre ++ (n, x) :: post ->
  exists l1 l2, l = l1 ++ x :: l2 /\ (n = i + length l1)%nat
    /\ map snd pre = filter p l1 /\ map snd post = filter p l2 /\ p x = true.
Proof.
  revert i pre. induction l as [|a l IH]; intros i pre H; cbn in H.
  - destruct pre; discriminate.
  - destruct (p a) eqn:Ea.
    + destruct pre as [|q pre].
      * cbn in H. injection H as H1 H2 H3. subst. exists [], l. cbn. repeat split; auto.
        clear. generalize (S n). induction l as [|b l IH]; intro k; cbn; [reflexivity|].
        destruct (p b); cbn; rewrite ?IH; reflexivity.
      * cbn in H. injection H as Hq H.
        destruct (IH (S i) pre H) as [l1 [l2 [-> [Hn [H1 [H2 H3]]]]]].
        exists (a :: l1), l2. cbn. rewrite Ea. repeat split; auto; [lia|].
        subst q. cbn. congruence.
    + destruct (IH (S i) pre H) as [l1 [l2 [-> [Hn [H1 [H2 H3]]]]]].
      exists (a :: l1), l2. cbn. rewrite Ea. repeat split; auto; lia.
Qed.

Lemma mem_load_spec p now m ex :
  m_poisoned m = false ->
  match mem_load p now m ex with
  | (m', Ok None) => m' = m /\ (forall k, In k (m_jobs m) -> ~ due now ex (kj_job k))
  | (m', Ok (Some j')) =>
      exists pre k post,
        m_jobs m = pre ++ k :: post /\ due now ex (kj_job k)
        /\ job_executing p now (kj_job k) = Some j'
        /\ m' = set_jobs (pre ++ mk_kjob j' (kj_key k) :: post) m
        /\ (forall x, In x pre -> due now ex (kj_job x) -> strictly_before (kj_job k) (kj_job x))
        /\ (forall x, In x post -> due now ex (kj_job x) -> ~ strictly_before (kj_job x) (kj_job k))
  | (m', Err _) => False
  | (m', Panic) =>
      m' = poison m
      /\ exists k, In k (m_jobs m) /\ due now ex (kj_job k) /\ job_executing p now (kj_job k) = None
  end.
Proof.
  intro Hp. unfold mem_load. rewrite Hp.
  set (cands := filter _ (number 0 (m_jobs m))).
  set (leb := fun a b : nat * kjob => load_leb (kj_job (snd a)) (kj_job (snd b))).
  pose proof (stable_sort_head leb
    (fun a b => load_leb_total (kj_job (snd a)) (kj_job (snd b)))
    (fun a b c => load_leb_trans (kj_job (snd a)) (kj_job (snd b)) (kj_job (snd c))) cands) as H.
  destruct (stable_sort leb cands) as [|[i k] rest].
  - split; [reflexivity|]. intros k Hk Hd.
    apply In_nth_error in Hk. destruct Hk as [n Hn].
    assert (Hin : In (n, k) cands).
    { unfold cands. apply filter_In. split; [|cbn; apply load_filter_due; exact Hd].
      apply number_in. exists n. split; [lia | exact Hn]. }
    rewrite H in Hin. destruct Hin.
  - destruct H as [pre [post [Hc [Hpre Hpost]]]].
    unfold cands in Hc. apply filter_number_split in Hc.
    destruct Hc as [l1 [l2 [Hl [Hi [H1 [H2 H3]]]]]]. cbn in Hi.
    apply load_filter_due in H3.
    destruct (job_executing p now (kj_job k)) as [j'|] eqn:Ej.
    + exists l1, k, l2. split; [exact Hl|]. split; [exact H3|]. split; [exact Ej|]. split.
      * rewrite Hl, Hi, set_nth_split. reflexivity.
      * split.
        -- intros x Hx Hd. apply load_filter_due in Hd.
           assert (Hin : In x (filter (load_filter now ex) l1)) by (apply filter_In; auto).
           rewrite <- H1 in Hin. apply in_map_iff in Hin. destruct Hin as [[n y] [<- Hy]].
           apply load_leb_false. exact (Hpre _ Hy).
        -- intros x Hx Hd. apply load_filter_due in Hd.
           assert (Hin : In x (filter (load_filter now ex) l2)) by (apply filter_In; auto).
           rewrite <- H2 in Hin. apply in_map_iff in Hin. destruct Hin as [[n y] [<- Hy]].
           apply load_leb_iff. exact (Hpost _ Hy).
    + split; [reflexivity|]. exists k. split; [rewrite Hl; apply in_or_app; right; left; reflexivity|].
      split; [exact H3 | exact Ej].
Qed.

Lemma job_executing_ok p now j j' :
  -2147483648 <= j_attempt j < 2147483647 ->
  job_executing p now j = Some j' -> j' = after_hand_out now j.
Proof.
  intros Ha H. unfold job_executing in H. rewrite i32_arith_ok in H by lia.
  injection H as <-. destruct j. reflexivity.
Qed.

Lemma job_executing_none p now j :
  job_executing p now j = None -> p = Debug /\ ~ (-2147483648 <= j_attempt j < 2147483647).
Proof.
  unfold job_executing. destruct (i32_arith p (j_attempt j + 1)) eqn:E; [discriminate|].
  intros _. apply i32_arith_none in E. intuition lia.
Qed.

(** * Operations on one job *)

Lemma map_app_cons {A B} (f : A -> B) pre x post :
  map f (pre ++ x :: post) = map f pre ++ f x :: map f post.
Proof. rewrite map_app. reflexivity. Qed.

Lemma notify_jobs ex t m : m_jobs (notify_subscribers ex t m) = m_jobs m.
Proof. unfold notify_subscribers. destruct (m_paused m); reflexivity. Qed.
Lemma notify_poisoned ex t m : m_poisoned (notify_subscribers ex t m) = m_poisoned m.
Proof. unfold notify_subscribers. destruct (m_paused m) eqn:E; reflexivity. Qed.
Lemma notify_paused ex t m : m_paused (notify_subscribers ex t m) = m_paused m.
Proof. unfold notify_subscribers. destruct (m_paused m) eqn:E; exact E. Qed.
Lemma notify_next_id ex t m : m_next_id (notify_subscribers ex t m) = m_next_id m.
Proof. unfold notify_subscribers. destruct (m_paused m); reflexivity. Qed.

Lemma with_job_spec m id f nt :
  m_poisoned m = false ->
  match with_job m id f nt with
  | (m', Ok _) =>
      exists pre k post j',
        m_jobs m = pre ++ k :: post /\ j_id (kj_job k) = id
        /\ (forall x, In x pre -> j_id (kj_job x) <> id)
        /\ f (kj_job k) = Some j'
        /\ m' = (let m1 := set_jobs (pre ++ mk_kjob j' (kj_key k) :: post) m in
                 if nt then notify_subscribers (j_executor j') (j_scheduled_at j') m1 else m1)
  | (m', Err e) => m' = m /\ e = JobNotFound id
      /\ (forall k, In k (m_jobs m) -> j_id (kj_job k) <> id)
  | (m', Panic) => m' = poison m
      /\ exists pre k post, m_jobs m = pre ++ k :: post /\ j_id (kj_job k) = id
         /\ (forall x, In x pre -> j_id (kj_job x) <> id) /\ f (kj_job k) = None
  end.
Proof.
  intro Hp. unfold with_job. rewrite Hp.
  destruct (split_first (fun k => j_id (kj_job k) =? id) (m_jobs m)) as [[[pre k] post]|] eqn:E.
  - apply split_first_some in E. destruct E as [H1 [H2 H3]].
    apply Z.eqb_eq in H2.
    assert (H3' : forall x, In x pre -> j_id (kj_job x) <> id)
      by (intros x Hx; specialize (H3 x Hx); apply Z.eqb_neq in H3; exact H3).
    destruct (f (kj_job k)) as [j'|] eqn:Ef.
    + exists pre, k, post, j'. repeat split; auto.
    + split; [reflexivity|]. exists pre, k, post. repeat split; auto.
  - split; [reflexivity|]. split; [reflexivity|].
    rewrite split_first_none in E. intros k Hk. specialize (E k Hk). apply Z.eqb_neq in E. exact E.
Qed.

(** The generic frame statement for the operations on one job. *)
Lemma with_job_changed_one m id f nt :
  m_poisoned m = false ->
  match with_job m id f nt with
  | (m', Ok _) =>
      exists j j', f j = Some j' /\ changed_one id j j' (jobs_of m) (jobs_of m')
  | (m', Err e) => jobs_of m' = jobs_of m /\ e = JobNotFound id
      /\ (forall j, In j (jobs_of m) -> j_id j <> id)
  | (m', Panic) => exists j, In j (jobs_of m) /\ j_id j = id /\ f j = None
  end.
Proof.
  intro Hp. pose proof (with_job_spec m id f nt Hp) as H.
  destruct (with_job m id f nt) as [m' [u|e|]].
  - destruct H as [pre [k [post [j' [H1 [H2 [H3 [H4 ->]]]]]]]].
    exists (kj_job k), j'. split; [exact H4|].
    exists (map kj_job pre), (map kj_job post). unfold jobs_of. rewrite H1.
    split; [apply map_app_cons|]. split.
    + destruct nt; cbn zeta; rewrite ?notify_jobs; cbn [set_jobs m_jobs]; apply map_app_cons.
    + split; [exact H2|]. intros x Hx. apply in_map_iff in Hx. destruct Hx as [y [<- Hy]]. auto.
  - destruct H as [-> [-> H]]. repeat split; auto. intros j Hj. unfold jobs_of in Hj.
    apply in_map_iff in Hj. destruct Hj as [k [<- Hk]]. auto.
  - destruct H as [_ [pre [k [post [H1 [H2 [_ H4]]]]]]]. exists (kj_job k). split; [|auto].
    unfold jobs_of. rewrite H1. apply in_map, in_or_app. right. left. reflexivity.
Qed.

Lemma job_complete_spec now j : job_complete now j = after_complete now j.
Proof. destruct j. reflexivity. Qed.
Lemma job_retryable_spec now t e j :
  job_retryable now t e j = after_retryable now t (ee_type e) (ee_message e) j.
Proof. destruct j. reflexivity. Qed.
Lemma job_discarded_spec now e j :
  job_discarded now e j = after_discarded now (ee_type e) (ee_message e) j.
Proof. destruct j. reflexivity. Qed.
Lemma job_cancelled_spec now e j :
  job_cancelled now e j = after_cancelled now (ee_type e) (ee_message e) j.
Proof. destruct j. reflexivity. Qed.
Lemma job_snoozed_spec p t j j' :
  -2147483648 < j_attempt j <= 2147483647 ->
  job_snoozed p t j = Some j' -> j' = after_snoozed t j.
Proof.
  intros Ha H. unfold job_snoozed in H. rewrite i32_arith_ok in H by lia. injection H as <-.
  unfold after_snoozed. destruct (Z.eq_dec (j_attempt j) 1) as [E|E].
  - rewrite E. cbn. destruct j. reflexivity.
  - apply Z.eqb_neq in E. rewrite E. destruct j. reflexivity.
Qed.
Lemma job_snoozed_none p t j :
  job_snoozed p t j = None -> p = Debug /\ ~ (-2147483648 < j_attempt j <= 2147483647 + 1).
Proof.
  unfold job_snoozed. destruct (i32_arith p (j_attempt j - 1)) eqn:E; [discriminate|].
  intros _. apply i32_arith_none in E. intuition lia.
Qed.
Lemma job_rerunable_spec p now j j' :
  -2147483648 <= j_max_attempts j < 2147483647 ->
  job_rerunable p now j = Some j' -> j' = after_rerun now j.
Proof.
  intros Ha H. unfold job_rerunable in H. rewrite i32_arith_ok in H by lia. injection H as <-.
  unfold after_rerun. destruct (Z.eq_dec (j_attempt j) 1) as [E|E].
  - rewrite E. cbn. destruct j. cbn in *. subst. reflexivity.
  - apply Z.eqb_neq in E. rewrite E. destruct j. reflexivity.
Qed.
Lemma job_rerunable_none p now j :
  job_rerunable p now j = None -> p = Debug /\ ~ (-2147483648 - 1 <= j_max_attempts j < 2147483647).
Proof.
  unfold job_rerunable. destruct (i32_arith p (j_max_attempts j + 1)) eqn:E; [discriminate|].
  intros _. apply i32_arith_none in E. intuition lia.
Qed.
Lemma job_replace_spec e j : job_replace e j = after_conflict e j.
Proof.
  unfold job_replace, after_conflict.
  destruct (eq_criteria e) as [[k x d s [|r]]|]; [reflexivity| |reflexivity].
  cbn [uc_on_conflict]. destruct (status_mem (j_status j) (rp_for_statuses r)) eqn:E.
  - apply status_mem_in in E. destruct in_dec as [Hi|Hi]; [|contradiction].
    destruct j, r as [[] [] [] [] [] st]; reflexivity.
  - apply status_mem_not_in in E. destruct in_dec as [Hi|Hi]; [contradiction|reflexivity].
Qed.

Lemma after_conflict_id e j : j_id (after_conflict e j) = j_id j.
Proof.
  unfold after_conflict. destruct (eq_criteria e) as [uq|]; [|reflexivity].
  destruct (uc_on_conflict uq); [reflexivity|]. destruct in_dec; reflexivity.
Qed.

(** * Uniqueness matching *)

Lemma key_eqb_eq a b : key_eqb a b = true <-> a = b.
Proof.
  destruct a, b; cbn; try (split; congruence). rewrite Z.eqb_eq. split; congruence.
Qed.

Lemma enqueuable_matches_spec now e k :
  enqueuable_matches now e k = true <-> conflicts_mem now e k.
Proof.
  unfold enqueuable_matches, conflicts_mem. destruct (eq_criteria e) as [uq|].
  - rewrite !andb_true_iff, key_eqb_eq, status_mem_in, orb_true_iff, negb_true_iff, String.eqb_eq.
    unfold dt_diff. split.
    + intros [[[H1 H2] H3] H4]. exists uq. split; [reflexivity|]. split; [exact H1|].
      split; [intro Hx; destruct H2 as [H2|H2]; congruence|]. split; [exact H3|].
      intros d Hd. rewrite Hd in H4. lia.
    + intros [uq' [Hu [H1 [H2 [H3 H4]]]]]. injection Hu as <-. repeat split; auto.
      * destruct (uc_executor uq); auto.
      * destruct (uc_duration uq) as [d|]; [|reflexivity]. specialize (H4 d eq_refl). lia.
  - split; [discriminate|]. intros [uq [H _]]. discriminate.
Qed.

(** * Notifications *)

Lemma notify_inboxes ex t m :
  m_paused m = false -> delivered ex t (inboxes m) (inboxes (notify_subscribers ex t m)).
Proof.
  intro Hp. unfold delivered, inboxes, notify_subscribers. rewrite Hp. cbn.
  induction (m_subs m) as [|s l IH]; cbn; constructor; [|exact IH].
  cbn. destruct (String.eqb (sub_executor s) ex) eqn:E; cbn; repeat split; auto.
  - apply String.eqb_eq in E. congruence.
  - apply String.eqb_neq in E. congruence.
Qed.

Lemma notify_paused_inboxes ex t m :
  m_paused m = true -> notify_subscribers ex t m = m.
Proof. intro Hp. unfold notify_subscribers. rewrite Hp. reflexivity. Qed.
