(** The pruning test of the conformance suite: two hundred jobs. *)
From Coq Require Import Permutation.
From Verif Require Import Base Chrono Types Query Builder Memory PgRow PgQuery PgQueryProofs Pg Suite SuiteProofs.

Definition hours (i : Z) : Z := i * 3600 * ns_per_s.
Definition past_jobs (now : time) (n : nat) (i : Z) : list (string * time) :=
  map (fun j => (default_executor, now - hours (i + Z.of_nat j))) (seq 0 n).

Lemma past_jobs_S now n i : past_jobs now (S n) i = (default_executor, now - hours i) :: past_jobs now n (i + 1).
Proof.
  unfold past_jobs. cbn [seq map]. f_equal; [do 3 f_equal; cbn; lia|].
  rewrite <- seq_shift, map_map. apply map_ext. intros j. do 3 f_equal. lia.
Qed.

Lemma filter_map {A B} (g : B -> bool) (f : A -> B) l : filter g (map f l) = map f (filter (fun x => g (f x)) l).
Proof. induction l as [|x l IH]; [reflexivity|]. cbn. destruct (g (f x)); cbn; rewrite IH; reflexivity. Qed.
Lemma filter_all {A} (g : A -> bool) l : Forall (fun x => g x = true) l -> filter g l = l.
Proof. induction 1 as [|x l H Hl IH]; [reflexivity|]. cbn. rewrite H, IH. reflexivity. Qed.
Lemma filter_none {A} (g : A -> bool) l : Forall (fun x => g x = false) l -> filter g l = [].
Proof. induction 1 as [|x l H Hl IH]; [reflexivity|]. cbn. rewrite H, IH. reflexivity. Qed.

(** The jobs of [past_jobs] younger than fifty hours. *)
Lemma count_young now g : (forall i, 0 <= i < 100 -> g (default_executor, now - hours i) = (i <? 50)) ->
  length (filter g (past_jobs now 100 0)) = 50%nat.
Proof.
  intros H. unfold past_jobs. rewrite filter_map, map_length.
  rewrite (filter_ext_in _ (fun j => Z.of_nat j <? 50)); [reflexivity|].
  intros j Hj%in_seq. cbn beta. rewrite H by lia. f_equal.
Qed.

(** ** Any backend that does the four things the test relies on *)

Definition plain (ex : string) (t : time) : enqueuable :=
  mk_enqueuable ex (JStr "data") (JStr "metadata") 5 t [] 0 None.
Definition known (v : string * time) : Prop := fst v = default_executor \/ fst v = other_executor.
Definition all_jobs : query := QNot (QExecutorEqual "").
Definition prune_1 : prune_spec := mk_prune_spec Cancelled (MaxLength 10) (Except []).
Definition prune_2 : prune_spec := mk_prune_spec Complete (MaxLength 50) (Only [other_executor]).
Definition prune_3 : prune_spec :=
  mk_prune_spec Complete (MaxAge (50 * 3600 * ns_per_s)) (Only [default_executor]).

Section Any.
  Variable B : subject.
  Variables least most : Z.
  Notation tk := (steady least most 0 253402300799000000000).
  Notation sl := (rests 0 253402300799000000000).
  (** The state, the number of jobs ever, executor and time of every job. *)
  Variable Inv : su_state B -> Z -> list (string * time) -> Prop.
  (** How a time is kept. *)
  Variable kept : time -> time.
  Hypothesis Hmost : 0 <= least <= most /\ most <= 5000000000.
  Hypothesis Hpair : forall t1 s n V ex t, Inv s n V -> n < 900 -> ex = default_executor \/ ex = other_executor ->
    -1000000000000000 <= t <= 253402300799000000000 ->
    exists s1 id, su_step B t1 s (OpEnqueue (plain ex t)) = (s1, RId (Ok id))
      /\ forall t2, exists s2, su_step B t2 s1 (OpComplete id) = (s2, RUnit (Ok tt))
           /\ Inv s2 (n + 1) (V ++ [(ex, kept t)]).
  Hypothesis Hprune1 : forall t s n V, Inv s n V ->
    exists s', su_step B t s (OpPrune prune_1) = (s', RUnit (Ok tt)) /\ Inv s' n V.
  Hypothesis Hprune2 : forall t s n D W, Inv s n (D ++ W) -> Forall (fun v => fst v = default_executor) D ->
    Forall (fun v => fst v = other_executor) W -> length W = 100%nat ->
    exists s' W', su_step B t s (OpPrune prune_2) = (s', RUnit (Ok tt)) /\ Inv s' n (D ++ W')
      /\ Forall (fun v => fst v = other_executor) W' /\ length W' = 50%nat.
  Hypothesis Hprune3 : forall now t s n W,
    Inv s n (map (fun v => (fst v, kept (snd v))) (past_jobs now 100 0) ++ W) ->
    Forall (fun v => fst v = other_executor) W -> length W = 50%nat ->
    0 <= t <= 253402300799000000000 -> now + 605 * least <= t <= now + 605 * most ->
    exists s' V', su_step B t s (OpPrune prune_3) = (s', RUnit (Ok tt)) /\ Inv s' n V'
      /\ Forall known V' /\ length V' = 100%nat.
  Hypothesis Hcount : forall t s n V, Inv s n V -> Forall known V ->
    exists l, su_step B t s (OpQuery all_jobs) = (s, RJobs (Ok l)) /\ length l = length V.

  Lemma pair_ex ex t k s n V c : Inv s n V -> n < 900 -> ex = default_executor \/ ex = other_executor ->
    -1000000000000000 <= t <= 253402300799000000000 -> 0 <= c ->
    (forall s' c', Inv s' (n + 1) (V ++ [(ex, kept t)]) -> c + 2 * least <= c' <= c + 2 * most -> 0 <= c' <= 253402300799000000000 ->
       survives B tk sl k s' c') ->
    survives B tk sl (enqueue_ (plain ex t) (fun id => ok_ (OpComplete id) k)) s c.
  Proof.
    intros Hi Hn Hex Ht Hc K. intros t1 s1 r [Ht1 _] E.
    destruct (Hpair t1 _ _ _ _ _ Hi Hn Hex Ht) as (s1' & id & E1 & Hp).
    rewrite E1 in E. injection E as <- <-. intros t2 s2 r2 [Ht2 Hr2].
    destruct (Hp t2) as (s2' & E2 & Hi'). rewrite E2. intros E. injection E as <- <-.
    apply K; [assumption|lia|lia].
  Qed.

  Lemma past_run now k : forall m i s n V c, Inv s n V -> n + Z.of_nat m < 900 -> 0 <= i -> i + Z.of_nat m <= 100 ->
    0 <= now <= 253402300799000000000 -> 0 <= c <= 253402300799000000000 ->
    (forall s' c', Inv s' (n + Z.of_nat m) (V ++ map (fun v => (fst v, kept (snd v))) (past_jobs now m i)) ->
       c + 3 * Z.of_nat m * least <= c' <= c + 3 * Z.of_nat m * most -> 0 <= c' <= 253402300799000000000 ->
       survives B tk sl k s' c') ->
    survives B tk sl (fill_past m i now k) s c.
  Proof.
    induction m as [|m IH]; intros i s n V c Hi Hn H0 Him Hnow Hc K.
    - cbn [fill_past]. apply K; [|lia|lia]. cbn. rewrite app_nil_r, Z.add_0_r. exact Hi.
    - cbn [fill_past]. intros t [Ht Hr]. unfold dt_sub. cbv zeta.
      rewrite in_dt_ok by (unfold ns_per_s; lia). cbn [shift].
      change (with_time (now - i * 3600 * ns_per_s) _) with (plain default_executor (now - hours i)).
      apply (pair_ex _ _ _ _ n V); [assumption|lia|auto|unfold hours, ns_per_s; lia|lia|].
      intros s' c' Hi' Hc' Hr'. apply (IH _ _ _ _ _ Hi'); try lia.
      intros s2 c2 Hi2 Hc2 Hr2. apply K; try lia.
      rewrite past_jobs_S. cbn [map fst snd]. rewrite <- app_assoc in Hi2.
      replace (n + Z.of_nat (S m)) with (n + 1 + Z.of_nat m) by lia. exact Hi2.
  Qed.

  Lemma other_run k : forall m s n V c, Inv s n V -> n + Z.of_nat m < 900 ->
    0 <= c <= 253402300799000000000 ->
    (forall s' c' W, Inv s' (n + Z.of_nat m) (V ++ W) -> Forall (fun v => fst v = other_executor) W -> length W = m ->
       c + 3 * Z.of_nat m * least <= c' <= c + 3 * Z.of_nat m * most -> 0 <= c' <= 253402300799000000000 ->
       survives B tk sl k s' c') ->
    survives B tk sl (fill_other m k) s c.
  Proof.
    induction m as [|m IH]; intros s n V c Hi Hn Hc K.
    - cbn [fill_other]. apply (K _ _ []); [|constructor|reflexivity|lia|lia].
      rewrite app_nil_r, Z.add_0_r. exact Hi.
    - cbn [fill_other]. intros t [Ht Hr].
      change (with_executor other_executor _) with (plain other_executor t).
      apply (pair_ex _ _ _ _ n V); [assumption|lia|auto|lia|lia|].
      intros s' c' Hi' Hc' Hr'. apply (IH _ _ _ _ Hi'); try lia.
      intros s2 c2 W Hi2 HW HlW Hc2 Hr2. apply (K _ _ ((other_executor, kept t) :: W)); try lia.
      + rewrite <- app_assoc in Hi2. replace (n + Z.of_nat (S m)) with (n + 1 + Z.of_nat m) by lia. exact Hi2.
      + constructor; [reflexivity|assumption].
      + cbn. congruence.
  Qed.

  Lemma count_run z k s n V c : Inv s n V -> Forall known V -> Z.of_nat (length V) = z ->
    (forall c', c + least <= c' <= c + most -> 0 <= c' <= 253402300799000000000 -> survives B tk sl k s c') ->
    survives B tk sl (count_ z k) s c.
  Proof.
    intros Hi Hv Hz K t s' r [Ht Hr]. destruct (Hcount t s n V Hi Hv) as (l & E & Hl).
    fold all_jobs. rewrite E. intros E'. injection E' as <- <-. unfold check. rewrite Hl, Hz, Z.eqb_refl. apply K; lia.
  Qed.

  Lemma past_known now m i : Forall (fun v => fst v = default_executor) (map (fun v => (fst v, kept (snd v))) (past_jobs now m i)).
  Proof. apply Forall_forall. unfold past_jobs. intros v Hv. apply in_map_iff in Hv. destruct Hv as (w & <- & Hw).
    apply in_map_iff in Hw. destruct Hw as (j & <- & _). reflexivity. Qed.
  Lemma known_app D W : Forall (fun v => fst v = default_executor) D -> Forall (fun v => fst v = other_executor) W ->
    Forall known (D ++ W).
  Proof. intros H1 H2. apply Forall_app. split; (eapply Forall_impl; [|eassumption]); unfold known; auto. Qed.
  Lemma past_length now m i : length (map (fun v => (fst v, kept (snd v))) (past_jobs now m i)) = m.
  Proof. unfold past_jobs. rewrite !map_length, seq_length. reflexivity. Qed.

  Theorem prune_survives s c : Inv s 0 [] -> 0 <= c <= 253402300799000000000 -> survives B tk sl test_prune s c.
  Proof.
    intros Hi Hc now [Hnow Hnr].
    apply (past_run now _ _ _ _ 0 []); try assumption; try lia.
    intros s1 c1 Hi1 Hc1 Hr1. cbn [app] in Hi1.
    apply (other_run _ _ _ _ _ _ Hi1); try lia.
    intros s2 c2 W Hi2 HW HlW Hc2 Hr2.
    intros t3 s3 r3 [Ht3 Hr3]. fold prune_1. destruct (Hprune1 t3 _ _ _ Hi2) as (s3' & E3 & Hi3).
    rewrite E3. intros E. injection E as <- <-.
    eapply count_run; [exact Hi3|apply known_app; [apply past_known|assumption]|rewrite app_length, past_length, HlW; reflexivity|].
    intros c4 Hc4 Hr4 t5 s5 r5 [Ht5 Hr5]. fold prune_2.
    destruct (Hprune2 t5 _ _ _ _ Hi3 (past_known _ _ _) HW HlW) as (s5' & W5 & E5 & Hi5 & HW5 & Hl5).
    rewrite E5. intros E. injection E as <- <-.
    eapply count_run; [exact Hi5|apply known_app; [apply past_known|assumption]|rewrite app_length, past_length, Hl5; reflexivity|].
    intros c6 Hc6 Hr6 t7 s7 r7 [Ht7 Hr7]. fold prune_3.
    destruct (Hprune3 now t7 _ _ _ Hi5 HW5 Hl5) as (s7' & V7 & E7 & Hi7 & Hk7 & Hl7); [lia|lia|].
    rewrite E7. intros E. injection E as <- <-.
    eapply count_run; [exact Hi7|assumption|rewrite Hl7; reflexivity|].
    reflexivity.
  Qed.
End Any.

(** ** In memory *)

Definition view (k : kjob) : string * time := (j_executor (kj_job k), j_scheduled_at (kj_job k)).
Record minv (m : mem) (V : list (string * time)) : Prop := {
  mi_sound : m_poisoned m = false;
  mi_next : 0 <= m_next_id m < 1000;
  mi_ids : Forall (fun k => j_id (kj_job k) < m_next_id m) (m_jobs m);
  mi_done : Forall (fun k => j_status (kj_job k) = Complete) (m_jobs m);
  mi_view : map view (m_jobs m) = V
}.

Lemma split_first_last l k id :
  Forall (fun k => j_id (kj_job k) < id) l -> j_id (kj_job k) = id ->
  split_first (fun k => j_id (kj_job k) =? id) (l ++ [k]) = Some (l, k, []).
Proof.
  induction 1 as [|x l H Hl IH]; intros Hk; cbn.
  - rewrite (proj2 (Z.eqb_eq _ _) Hk). reflexivity.
  - rewrite (proj2 (Z.eqb_neq _ _)) by lia. rewrite IH by assumption. reflexivity.
Qed.

Lemma notify_fields ex t m : m_jobs (notify_subscribers ex t m) = m_jobs m
  /\ m_next_id (notify_subscribers ex t m) = m_next_id m /\ m_poisoned (notify_subscribers ex t m) = m_poisoned m.
Proof. unfold notify_subscribers. destruct (m_paused m); auto. Qed.

(** Enqueuing a job and completing it. *)
Lemma mem_done p t1 m V e : minv m V -> m_next_id m < 900 -> eq_criteria e = None ->
  exists m1, mem_step p t1 m (OpEnqueue e) = (m1, RId (Ok (m_next_id m)))
    /\ forall t2, exists m2, mem_step p t2 m1 (OpComplete (m_next_id m)) = (m2, RUnit (Ok tt))
    /\ minv m2 (V ++ [(eq_executor e, eq_scheduled_at e)]) /\ m_next_id m2 = m_next_id m + 1.
Proof.
  intros [Hs Hn Hi Hd Hv] Hb He. cbn [mem_step]. unfold mem_enqueue. rewrite He. unfold insert_new_job. cbn [m_poisoned m_jobs].
  rewrite Hs. eexists. split; [reflexivity|]. intros t2. eexists.
  set (k := into_job t1 (m_next_id m) e).
  match goal with |- context [notify_subscribers ?a ?b ?c] => destruct (notify_fields a b c) as (Nj & Nn & Np);
    set (m1 := notify_subscribers a b c) in * end.
  cbn [set_jobs m_jobs m_next_id m_poisoned] in Nj, Nn, Np.
  assert (W : wrap_i32 (m_next_id m + 1) = m_next_id m + 1) by (unfold wrap_i32; rewrite Z.mod_small; lia).
  rewrite W in Nn. unfold mem_mark_complete, with_job. rewrite Np, ?Hs, Nj.
  rewrite (split_first_last (m_jobs m) k (m_next_id m) Hi eq_refl). cbn [fst snd].
  split; [reflexivity|]. split; [|exact Nn].
  fold k; fold m1. split; cbn [set_jobs m_jobs m_next_id m_poisoned].
  - exact Np.
  - lia.
  - rewrite Nn. apply Forall_app. split; [|repeat constructor; cbn; lia].
    eapply Forall_impl; [|exact Hi]. cbn. intros. lia.
  - apply Forall_app. split; [exact Hd|repeat constructor].
  - rewrite map_app, Hv. reflexivity.
Qed.

Lemma map_view_app l V W : map view l = V ++ W -> exists a b, l = a ++ b /\ map view a = V /\ map view b = W.
Proof. intros H. apply map_eq_app in H. destruct H as (a & b & -> & <- & <-). eauto. Qed.

Lemma minv_set m l V V' : minv m V -> (forall k, In k l -> In k (m_jobs m)) -> map view l = V' ->
  minv (set_jobs l m) V'.
Proof.
  intros [Hs Hn Hi Hd Hv] Hl Hv'. split; cbn; auto;
    apply Forall_forall; intros k Hk; apply Hl in Hk.
  - exact (proj1 (Forall_forall _ _) Hi k Hk).
  - exact (proj1 (Forall_forall _ _) Hd k Hk).
Qed.

Lemma retain_none ps n c l : Forall (fun k => prune_matches ps (kj_job k) = false) l ->
  retain_max_length ps n c l = l.
Proof. induction 1 as [|k l H Hl IH]; [reflexivity|]. cbn. rewrite H, IH. reflexivity. Qed.
Lemma retain_app ps n c l l' : Forall (fun k => prune_matches ps (kj_job k) = false) l ->
  retain_max_length ps n c (l ++ l') = l ++ retain_max_length ps n c l'.
Proof. induction 1 as [|k l H Hl IH]; [reflexivity|]. cbn. rewrite H, IH. reflexivity. Qed.
Lemma retain_all ps n : forall l c, Forall (fun k => prune_matches ps (kj_job k) = true) l ->
  retain_max_length ps n c l = skipn (Z.to_nat (n - c)) l.
Proof.
  induction l as [|k l IH]; intros c H; cbn [retain_max_length]; [rewrite skipn_nil; reflexivity|].
  inversion H; subst. rewrite H2. destruct (n <? c + 1) eqn:E.
  - replace (Z.to_nat (n - c)) with 0%nat by lia. cbn [skipn]. rewrite IH by assumption.
    replace (Z.to_nat (n - (c + 1))) with 0%nat by lia. reflexivity.
  - rewrite IH by assumption. replace (Z.to_nat (n - c)) with (S (Z.to_nat (n - (c + 1)))) by lia. reflexivity.
Qed.

Lemma only_matches m V ex : minv m V -> forall k, In k (m_jobs m) -> forall b,
  prune_matches (mk_prune_spec Complete b (Only [ex])) (kj_job k) = String.eqb (fst (view k)) ex.
Proof.
  intros Hm k Hk b. unfold prune_matches. cbn [ps_status ps_executors].
  rewrite (proj1 (Forall_forall _ _) (mi_done _ _ Hm) k Hk). cbn. rewrite orb_false_r, String.eqb_sym. reflexivity.
Qed.

Theorem mem_prune_test p c : 0 <= c <= 253402300799000000000 ->
  survives (memory p) (steady 0 5000000000 0 253402300799000000000) (rests 0 253402300799000000000) test_prune mem_init c.
Proof.
  apply (prune_survives (memory p) 0 5000000000 (fun s n V => minv s V /\ m_next_id s = n) (fun t => t)).
  - intros t1 s n V ex t [Hm <-] Hn Hex Ht.
    destruct (mem_done p t1 s V (plain ex t) Hm Hn eq_refl) as (m1 & E & H).
    exists m1, (m_next_id s). split; [exact E|]. intros t2. destruct (H t2) as (m2 & E2 & H2 & H3).
    exists m2. split; [exact E2|]. split; assumption.
  - intros t s n V [Hm <-]. eexists. cbn [memory su_step mem_step]. unfold mem_prune. rewrite (mi_sound _ _ Hm).
    cbn [prune_1 ps_by]. split; [reflexivity|]. split; [|reflexivity].
    apply (minv_set _ _ V); [assumption| |]; rewrite retain_none.
    + auto.
    + apply Forall_forall. intros k Hk. unfold prune_matches. rewrite (proj1 (Forall_forall _ _) (mi_done _ _ Hm) k Hk). reflexivity.
    + exact (mi_view _ _ Hm).
    + apply Forall_forall. intros k Hk. unfold prune_matches. rewrite (proj1 (Forall_forall _ _) (mi_done _ _ Hm) k Hk). reflexivity.
  - intros t s n D W [Hm <-] HD HW Hl.
    destruct (map_view_app _ _ _ (mi_view _ _ Hm)) as (a & b & Hab & Ha & Hb).
    assert (Fa : Forall (fun k => prune_matches prune_2 (kj_job k) = false) a).
    { apply Forall_forall. intros k Hk. unfold prune_2. rewrite (only_matches _ _ _ Hm) by (rewrite Hab; apply in_or_app; auto).
      rewrite (proj1 (Forall_forall _ _) HD (view k)) by (rewrite <- Ha; apply in_map; assumption). reflexivity. }
    assert (Fb : Forall (fun k => prune_matches prune_2 (kj_job k) = true) b).
    { apply Forall_forall. intros k Hk. unfold prune_2. rewrite (only_matches _ _ _ Hm) by (rewrite Hab; apply in_or_app; auto).
      rewrite (proj1 (Forall_forall _ _) HW (view k)) by (rewrite <- Hb; apply in_map; assumption). reflexivity. }
    exists (set_jobs (a ++ skipn 50 b) s), (skipn 50 W). split; [|split; [split; [|reflexivity]|split]].
    + cbn [memory su_step mem_step]. unfold mem_prune. rewrite (mi_sound _ _ Hm). cbn [prune_2 ps_by]. fold prune_2.
      rewrite Hab, retain_app by assumption. rewrite retain_all by assumption. reflexivity.
    + apply (minv_set _ _ (D ++ W)); [assumption| |].
      * intros k Hk. rewrite Hab. apply in_app_or in Hk. apply in_or_app. destruct Hk as [Hk|Hk]; [auto|].
        right. rewrite <- (firstn_skipn 50 b). apply in_or_app. auto.
      * rewrite map_app, Ha, <- skipn_map, Hb. reflexivity.
    + apply Forall_forall. intros v Hv. apply (proj1 (Forall_forall _ _) HW). rewrite <- (firstn_skipn 50 W). apply in_or_app. auto.
    + rewrite skipn_length, Hl. reflexivity.
  - intros now t s n W [Hm <-] HW Hl Hr Ht.
    set (g := fun v : string * time => negb (String.eqb (fst v) default_executor)
                || ((snd v <? t + 50 * 3600 * ns_per_s) && (t - 50 * 3600 * ns_per_s <? snd v))).
    exists (set_jobs (filter (fun k => g (view k)) (m_jobs s)) s).
    eexists. split; [|split; [split; [apply (minv_set _ _ _ _ Hm); [|reflexivity]|reflexivity]|]].
    + cbn [memory su_step mem_step]. unfold mem_prune. rewrite (mi_sound _ _ Hm). cbn [prune_3 ps_by]. fold prune_3.
      unfold dt_sub, dt_add. cbv zeta. rewrite !in_dt_ok by (unfold ns_per_s; lia).
      apply (f_equal (fun l => (set_jobs l s, RUnit (Ok tt)))). apply filter_ext_in. intros k Hk. unfold prune_3. rewrite (only_matches _ _ _ Hm) by assumption. reflexivity.
    + intros k Hk. apply filter_In in Hk. tauto.
    + rewrite <- filter_map, (mi_view _ _ Hm), filter_app. split.
      * apply Forall_app. split; apply Forall_forall; intros v Hv; apply filter_In in Hv; destruct Hv as [Hv _].
        -- left. apply (proj1 (Forall_forall _ _) (past_known (fun t => t) now 100 0) v Hv).
        -- right. apply (proj1 (Forall_forall _ _) HW v Hv).
      * rewrite app_length. rewrite (filter_all g W).
        -- rewrite (map_ext _ (fun v => v)) by (intros []; reflexivity). rewrite map_id, Hl, count_young; [reflexivity|].
           intros i Hi. unfold g, hours, ns_per_s in *. cbn [fst snd]. rewrite String.eqb_refl. cbn [negb orb]. lia.
        -- eapply Forall_impl; [|exact HW]. intros v Hv. unfold g. rewrite Hv. reflexivity.
  - intros t s n V [Hm <-] Hk. eexists. split.
    + cbn [memory su_step mem_step]. unfold mem_query, matching_jobs. rewrite (mi_sound _ _ Hm). reflexivity.
    + rewrite map_length, filter_all; [rewrite <- (mi_view _ _ Hm), map_length; reflexivity|].
      apply Forall_forall. intros k Hin. cbn.
      rewrite <- (mi_view _ _ Hm) in Hk. rewrite Forall_forall in Hk.
      destruct (Hk (view k) (in_map _ _ _ Hin)) as [E|E]; cbn in E; rewrite E; reflexivity.
  - split; [|reflexivity]. split; cbn; try constructor; try reflexivity; lia.
Qed.

(** ** In Postgres *)

Definition rview (r : row) : string * time := (r_executor r, r_scheduled_at r).
Record pinv (t : tbl) (V : list (string * time)) : Prop := {
  pi_next : 1 <= t_next t < 1000;
  pi_ids : Forall (fun r => r_id r < t_next t) (t_rows t);
  pi_nodup : NoDup (map r_id (t_rows t));
  pi_done : Forall (fun r => r_status r = "complete"%string /\ r_errors r = []) (t_rows t);
  pi_view : map rview (t_rows t) = V
}.

Lemma update_last id f r : forall l, Forall (fun r => r_id r < id) l -> r_id r = id ->
  update_rows id f (l ++ [r]) = match f r with Some r' => Some (l ++ [r'], 1) | None => None end.
Proof.
  induction 1 as [|x l H Hl IH]; intros Hr; cbn [app update_rows].
  - rewrite (proj2 (Z.eqb_eq _ _) Hr). destruct (f r); reflexivity.
  - rewrite IH by assumption. destruct (f r); [|reflexivity]. rewrite (proj2 (Z.eqb_neq _ _)) by lia. reflexivity.
Qed.

Lemma nodup_snoc {A} (l : list A) x : NoDup l -> ~ In x l -> NoDup (l ++ [x]).
Proof.
  intros H Hx. apply (Permutation_NoDup (l := x :: l)); [apply Permutation_cons_append|]. constructor; assumption.
Qed.

Lemma pg_done ident t1 t V ex at_ : pinv t V -> t_next t < 901 -> ex = default_executor \/ ex = other_executor ->
  -1000000000000000 <= at_ <= 253402300799000000000 ->
  exists u, pg_step ident t1 t (OpEnqueue (plain ex at_)) = (u, RId (Ok (t_next t)))
    /\ forall t2, exists v, pg_step ident t2 u (OpComplete (t_next t)) = (v, RUnit (Ok tt))
    /\ pinv v (V ++ [(ex, pg_time at_)]) /\ t_next v = t_next t + 1.
Proof.
  intros [Hn Hi Hu Hd Hv] Hb Hex Hat. cbn [pg_step]. unfold pg_enqueue. cbn [plain eq_criteria]. unfold pg_insert.
  assert (R : pg_request_ok (plain ex at_) = true).
  { unfold pg_request_ok. cbn [plain eq_executor eq_data eq_metadata eq_scheduled_at eq_tags].
    rewrite time_ok_of by lia. destruct Hex as [-> | ->]; reflexivity. }
  fold (plain ex at_). rewrite R. cbn [negb]. rewrite (proj2 (Z.ltb_ge _ _)) by lia.
  eexists. split; [reflexivity|]. intros t2. unfold pg_complete, pg_update_by_id. cbn [negb t_rows t_next].
  rewrite update_last; [|assumption|reflexivity]. cbn [Z.eqb Pos.eqb].
  eexists. split; [reflexivity|]. split; [|reflexivity]. split; cbn [t_rows t_next].
  - lia.
  - apply Forall_app. split; [|repeat constructor; cbn; lia]. eapply Forall_impl; [|exact Hi]. cbn. intros. lia.
  - rewrite map_app. apply nodup_snoc; [assumption|]. cbn. intros Hin. apply in_map_iff in Hin.
    destruct Hin as (r & Er & Hr). rewrite Forall_forall in Hi. specialize (Hi r Hr). lia.
  - apply Forall_app. split; [exact Hd|repeat constructor].
  - rewrite map_app, Hv. reflexivity.
Qed.

Lemma nodup_filter {A B} (f : A -> B) (g : A -> bool) l : NoDup (map f l) -> NoDup (map f (filter g l)).
Proof.
  induction l as [|x l IH]; cbn; intros H; [constructor|]. inversion H; subst. destruct (g x); [|auto].
  cbn. constructor; [|auto]. intros Hin. apply H2. apply in_map_iff in Hin. destruct Hin as (y & <- & Hy).
  apply filter_In in Hy. apply in_map. tauto.
Qed.

Lemma pinv_filter t g V V' : pinv t V -> map rview (filter g (t_rows t)) = V' -> pinv (mk_tbl (filter g (t_rows t)) (t_next t)) V'.
Proof.
  intros [Hn Hi Hu Hd Hv] Hv'. split; cbn [t_rows t_next]; auto.
  - apply Forall_forall. intros r Hr. apply filter_In in Hr. rewrite Forall_forall in Hi. apply Hi. tauto.
  - apply nodup_filter. assumption.
  - apply Forall_forall. intros r Hr. apply filter_In in Hr. rewrite Forall_forall in Hd. apply Hd. tauto.
Qed.

Lemma only_in_scope t V ex : pinv t V -> forall r, In r (t_rows t) -> forall b,
  pg_in_scope (mk_prune_spec Complete b (Only [ex])) r = String.eqb (fst (rview r)) ex.
Proof.
  intros Hm r Hr b. unfold pg_in_scope. cbn [ps_status ps_executors].
  destruct (proj1 (Forall_forall _ _) (pi_done _ _ Hm) r Hr) as [-> _]. cbn. apply orb_false_r.
Qed.

Lemma map_rview_app l V W : map rview l = V ++ W -> exists a b, l = a ++ b /\ map rview a = V /\ map rview b = W.
Proof. intros H. apply map_eq_app in H. destruct H as (a & b & -> & <- & <-). eauto. Qed.

(** Deleting all but the first [n] of a reordering. *)
Lemma keep_length n (l s : list row) : NoDup (map r_id l) -> Permutation l s -> (n <= length l)%nat ->
  length (filter (fun r => negb (existsb (Z.eqb (r_id r)) (map r_id (skipn n s)))) l) = n.
Proof.
  intros Hn Hp Hl.
  assert (P : forall g (a b : list row), Permutation a b -> length (filter g a) = length (filter g b)).
  { intros g a b. induction 1; cbn; repeat match goal with |- context [g ?x] => destruct (g x) end; cbn; lia. }
  rewrite (P _ _ _ Hp). assert (Hs : NoDup (map r_id s)) by (eapply Permutation_NoDup; [apply Permutation_map; exact Hp|exact Hn]).
  assert (HL : (n <= length s)%nat) by (rewrite <- (Permutation_length Hp); exact Hl).
  set (g := fun r => negb (existsb (Z.eqb (r_id r)) (map r_id (skipn n s)))).
  assert (E : filter g s = filter g (firstn n s) ++ filter g (skipn n s)) by (rewrite <- filter_app, firstn_skipn; reflexivity).
  rewrite E. rewrite (filter_none g (skipn n s)), (filter_all g (firstn n s)).
  - rewrite app_nil_r, firstn_length. lia.
  - apply Forall_forall. intros r Hr. unfold g. apply negb_true_iff. apply Bool.not_true_is_false. intros Hx.
    apply existsb_exists in Hx. destruct Hx as (i & Hi & Ei). apply Z.eqb_eq in Ei. subst i.
    rewrite <- (firstn_skipn n s), map_app in Hs.
    assert (D : forall (a b : list Z) x, NoDup (a ++ b) -> In x a -> In x b -> False).
    { induction a as [|y a IHa]; intros b x Hnd Ha Hb; [destruct Ha|]. cbn in Hnd. inversion Hnd; subst.
      destruct Ha as [->|Ha].
      - apply H1. apply in_or_app. auto.
      - eapply IHa; eauto. }
    eapply D; [exact Hs|apply in_map; exact Hr|exact Hi].
  - apply Forall_forall. intros r Hr. unfold g. apply negb_false_iff. apply existsb_exists. exists (r_id r).
    split; [apply in_map; assumption|apply Z.eqb_refl].
Qed.

Lemma sorted_perm {A} (leb : A -> A -> bool) l : Permutation l (stable_sort leb l).
Proof.
  assert (Hi : forall x s, Permutation (x :: s) (insert_sorted leb x s)).
  { intros x s. induction s as [|y s IH]; [reflexivity|]. cbn [insert_sorted]. destruct (leb x y); [reflexivity|].
    rewrite perm_swap. constructor. exact IH. }
  induction l as [|x l IH]; [reflexivity|]. cbn. rewrite <- Hi. constructor. exact IH.
Qed.

Lemma read_complete l : Forall (fun r => r_status r = "complete"%string /\ r_errors r = []) l ->
  exists js, read_rows l = Ok js /\ length js = length l.
Proof.
  induction 1 as [|r l [H1 H2] Hl (js & E & Hlen)]; [exists []; auto|].
  cbn [read_rows]. unfold job_of_row. rewrite H1, H2. cbn [status_of_label String.eqb Ascii.eqb Bool.eqb map collect].
  rewrite E. eexists. split; [reflexivity|]. cbn. congruence.
Qed.

Lemma nodup_app_right {A} (a b : list A) : NoDup (a ++ b) -> NoDup b.
Proof. induction a as [|x a IH]; cbn; [auto|]. intros H. inversion H; auto. Qed.

Theorem pg_prune_test ident c : 0 <= c <= 253402300799000000000 ->
  survives (postgres ident) (steady 1000 30000000 0 253402300799000000000) (rests 0 253402300799000000000) test_prune tbl_init c.
Proof.
  apply (prune_survives (postgres ident) 1000 30000000 (fun s n V => pinv s V /\ t_next s = n + 1) pg_time).
  - intros t1 s n V ex t [Hm Hn'] Hn Hex Ht.
    destruct (pg_done ident t1 s V ex t Hm) as (m1 & E & H); [lia|assumption|assumption|].
    exists m1, (t_next s). split; [exact E|]. intros t2. destruct (H t2) as (m2 & E2 & H2 & H3).
    exists m2. split; [exact E2|]. split; [assumption|lia].
  - intros t s n V [Hm Hn]. cbn [postgres su_step pg_step]. unfold pg_prune, pg_doomed. cbn [prune_1 ps_by ps_status ps_executors].
    fold prune_1. rewrite (filter_none (pg_in_scope prune_1)).
    + cbn [pg_spec_ok forallb]. eexists. split; [reflexivity|]. split; [|exact Hn].
      apply (pinv_filter _ _ V); [assumption|]. rewrite filter_all; [exact (pi_view _ _ Hm)|].
      apply Forall_forall. reflexivity.
    + apply Forall_forall. intros r Hr. unfold pg_in_scope.
      destruct (proj1 (Forall_forall _ _) (pi_done _ _ Hm) r Hr) as [-> _]. reflexivity.
  - intros t s n D W [Hm Hn] HD HW Hl.
    destruct (map_rview_app _ _ _ (pi_view _ _ Hm)) as (a & b & Hab & Ha & Hb).
    assert (Fa : Forall (fun r => pg_in_scope prune_2 r = false) a).
    { apply Forall_forall. intros r Hr. unfold prune_2. rewrite (only_in_scope _ _ _ Hm) by (rewrite Hab; apply in_or_app; auto).
      rewrite (proj1 (Forall_forall _ _) HD (rview r)) by (rewrite <- Ha; apply in_map; assumption). reflexivity. }
    assert (Fb : Forall (fun r => pg_in_scope prune_2 r = true) b).
    { apply Forall_forall. intros r Hr. unfold prune_2. rewrite (only_in_scope _ _ _ Hm) by (rewrite Hab; apply in_or_app; auto).
      rewrite (proj1 (Forall_forall _ _) HW (rview r)) by (rewrite <- Hb; apply in_map; assumption). reflexivity. }
    cbn [postgres su_step pg_step]. unfold pg_prune, pg_doomed. cbn [prune_2 ps_by ps_status ps_executors in_past].
    fold prune_2. replace (filter (pg_in_scope prune_2) (t_rows s)) with b
      by (rewrite Hab, filter_app, (filter_none _ a), (filter_all _ b) by assumption; reflexivity).
    change (pg_spec_ok (Only [other_executor])) with true. cbv iota.
    set (leb := fun x y : row => r_scheduled_at y <=? r_scheduled_at x).
    set (g := fun r => negb (existsb (Z.eqb (r_id r)) (map r_id (skipn (Z.to_nat 50) (stable_sort leb b))))).
    eexists. exists (map rview (filter g b)). split; [reflexivity|].
    assert (Ga : Forall (fun r => g r = true) a).
    { apply Forall_forall. intros r Hr. unfold g. apply negb_true_iff, Bool.not_true_is_false. intros Hx.
      apply existsb_exists in Hx. destruct Hx as (i & Hi & Ei). apply Z.eqb_eq in Ei. subst i.
      apply in_map_iff in Hi. destruct Hi as (r' & Er & Hr').
      assert (Hb' : In r' b).
      { apply (Permutation_in _ (Permutation_sym (sorted_perm leb b))). rewrite <- (firstn_skipn (Z.to_nat 50) (stable_sort leb b)).
        apply in_or_app. auto. }
      pose proof (pi_nodup _ _ Hm) as Hnd. rewrite Hab in Hnd.
      apply in_split in Hr. destruct Hr as (a1 & a2 & ->). rewrite <- app_assoc, map_app in Hnd. cbn [app map] in Hnd.
      apply NoDup_remove_2 in Hnd. apply Hnd. rewrite in_app_iff, map_app, in_app_iff. right. right. rewrite <- Er. apply in_map. assumption. }
    split; [split; [|exact Hn]|split].
    + apply (pinv_filter _ _ (D ++ W)); [assumption|]. rewrite Hab, filter_app, (filter_all g a), map_app, Ha by assumption. reflexivity.
    + apply Forall_forall. intros v Hv. apply in_map_iff in Hv. destruct Hv as (r & <- & Hr). apply filter_In in Hr.
      apply (proj1 (Forall_forall _ _) HW). rewrite <- Hb. apply in_map. tauto.
    + rewrite map_length. apply keep_length.
      * pose proof (pi_nodup _ _ Hm) as Hnd. rewrite Hab, map_app in Hnd. apply nodup_app_right in Hnd. exact Hnd.
      * apply sorted_perm.
      * rewrite <- (map_length rview), Hb, Hl. cbn. lia.
  - intros now t s n W [Hm Hn] HW Hl Hr Ht.
    set (lo := t - 50 * 3600 * ns_per_s).
    set (g := fun v : string * time => negb (String.eqb (fst v) default_executor && (snd v <? pg_time lo))).
    cbn [postgres su_step pg_step]. unfold pg_prune, pg_doomed. cbn [prune_3 ps_by ps_status ps_executors in_past].
    fold prune_3. unfold dt_sub. cbv zeta. fold lo.
    rewrite in_dt_ok by (unfold lo, ns_per_s; lia). rewrite time_ok_of by (unfold lo, ns_per_s; lia).
    change (pg_spec_ok (Only [default_executor])) with true. cbv iota.
    eexists. exists (filter g (map rview (t_rows s))). split; [reflexivity|]. split; [split; [|exact Hn]|].
    + apply (pinv_filter _ _ _ _ Hm). rewrite filter_map. f_equal. apply filter_ext_in. intros r Hin. unfold g. f_equal.
      rewrite <- (only_in_scope _ _ default_executor Hm r Hin (MaxAge (50 * 3600 * ns_per_s))). fold prune_3.
      apply Bool.eq_iff_eq_true. rewrite existsb_exists, andb_true_iff. split.
      * intros (i & Hi & Ei). apply Z.eqb_eq in Ei. subst i. apply in_map_iff in Hi. destruct Hi as (r' & Er & Hr').
        apply filter_In in Hr'. destruct Hr' as [Hr' Hlt]. apply filter_In in Hr'. destruct Hr' as [Hin' Hs'].
        assert (r' = r); [|subst; auto].
        pose proof (pi_nodup _ _ Hm) as Hnd. clear - Hnd Hin Hin' Er.
        induction (t_rows s) as [|x l IH]; [destruct Hin|]. cbn in Hnd. inversion Hnd; subst.
        destruct Hin as [->|Hin], Hin' as [->|Hin']; auto.
        -- exfalso. apply H1. rewrite <- Er. apply in_map. assumption.
        -- exfalso. apply H1. rewrite Er. apply in_map. assumption.
      * intros [Hs Hlt]. exists (r_id r). split; [|apply Z.eqb_refl]. apply in_map. apply filter_In. split; [|exact Hlt].
        apply filter_In. auto.
    + rewrite (pi_view _ _ Hm), filter_app. split.
      * apply Forall_app. split; apply Forall_forall; intros v Hv; apply filter_In in Hv; destruct Hv as [Hv _].
        -- left. apply (proj1 (Forall_forall _ _) (past_known pg_time now 100 0) v Hv).
        -- right. apply (proj1 (Forall_forall _ _) HW v Hv).
      * rewrite app_length. rewrite (filter_all g W).
        -- rewrite filter_map, map_length, Hl. rewrite count_young; [reflexivity|].
           intros i Hi. unfold g. cbn [fst snd]. rewrite String.eqb_refl. cbn [andb].
           pose proof (pg_time_near lo). pose proof (pg_time_near (now - hours i)).
           unfold lo, hours, ns_per_s in *. lia.
        -- eapply Forall_impl; [|exact HW]. intros v Hv. unfold g. rewrite Hv. reflexivity.
  - intros t s n V [Hm Hn] Hk. cbn [postgres su_step pg_step]. unfold pg_query.
    assert (E : select_rows all_jobs (t_rows s) = Some (t_rows s)).
    { unfold select_rows, all_jobs. remember (parse_where _) as w eqn:Ew. vm_compute in Ew. subst w.
      change (bounds_ok _) with true. cbv iota. f_equal. apply filter_all. apply Forall_forall. intros r Hin.
      rewrite <- (pi_view _ _ Hm), Forall_forall in Hk.
      destruct (Hk (rview r) (in_map _ _ _ Hin)) as [E|E]; cbn in E |- *; rewrite E; reflexivity. }
    rewrite E.
    match goal with |- context [stable_sort ?f ?l] => pose proof (sorted_perm f l) as P; set (l' := stable_sort f l) in * end.
    destruct (read_complete l') as (js & Ej & Hj).
    { apply Forall_forall. intros r Hr. apply (Permutation_in _ (Permutation_sym P)) in Hr.
      exact (proj1 (Forall_forall _ _) (pi_done _ _ Hm) r Hr). }
    rewrite Ej. eexists. split; [reflexivity|]. rewrite Hj, <- (Permutation_length P), <- (pi_view _ _ Hm), map_length. reflexivity.
  - split; [|reflexivity]. split; cbn; try constructor; try reflexivity; lia.
Qed.
