(** The example program comes to its end: the query at its end finds the two jobs it asks for. *)
From Coq Require Import Lia Permutation.
From Verif Require Import Base Chrono Types Query QueryProofs Memory MemSpec Codec FxHash Builder Ticker Pruner PgRow PgQuery Pg PgSpec PgProofs PgQueryProofs PgOps PgHist
  PropsPg ApiSpec ApiProofs PgSysProofs ExampleMain PropsExample.
Open Scope string_scope.
Open Scope Z_scope.

(** * C115 The query at the end *)

(** The row of one of the two basic jobs: neither cancelled nor discarded, scheduled for [T] or later. *)
Definition basic_row (T : time) (id : Z) (tag : string) (r : row) : Prop :=
  r_id r = id /\ r_executor r = "basic_job" /\ In tag (r_tags r)
  /\ In (r_status r) ["scheduled"; "executing"; "complete"; "retryable"] /\ T <= r_scheduled_at r.

(** What is done to the table while the program runs, by its tasks, by [main] and by whoever else
    uses it: of the jobs [a] and [b] nothing is reported but that they are complete (C113_basic),
    unique jobs are of other executors and unique within them, the prunes are the program's, and
    nobody edits a job. *)
Definition program_op (a b : Z) (o : mop) : Prop :=
  match o with
  | OpRetryable id _ _ | OpDiscarded id _ | OpCancelled id _ | OpSnoozed id _ => id <> a /\ id <> b
  | OpUpdate _ => False
  | OpEnqueue e => forall uq, eq_criteria e = Some uq -> uc_executor uq = true /\ eq_executor e <> "basic_job"
  | OpPrune ps => In ps (pc_pruners main_pruners)
  | _ => True
  end.

Lemma update_keeps (P : row -> Prop) id f l l' n r :
  update_rows id f l = Some (l', n) -> In r l -> P r -> (forall r', r_id r = id -> f r = Some r' -> P r') ->
  exists r', In r' l' /\ P r'.
Proof.
  revert l' n. induction l as [|x l IH]; intros l' n H Hr HP Hf; [destruct Hr|]. cbn in H.
  destruct (update_rows id f l) as [[l2 m]|]; [|discriminate]. destruct Hr as [->|Hr].
  - destruct (Z.eqb_spec (r_id r) id) as [E|E].
    + destruct (f r) as [r'|] eqn:Ef; [|discriminate]. injection H as <- _. exists r'. split; [left; reflexivity|]. auto.
    + injection H as <- _. exists r. split; [left; reflexivity|exact HP].
  - destruct (IH l2 m eq_refl Hr HP Hf) as [r' [H1 H2]].
    destruct (r_id x =? id); [destruct (f x); [|discriminate]|]; injection H as <- _; exists r'; (split; [right; exact H1|exact H2]).
Qed.
Lemma by_id_keeps (P : row -> Prop) ok id f t r :
  In r (t_rows t) -> P r -> (forall r', r_id r = id -> f r = Some r' -> P r') ->
  exists r', In r' (t_rows (fst (pg_update_by_id ok id f t))) /\ P r'.
Proof.
  intros Hr HP Hf. unfold pg_update_by_id. destruct (negb ok); [exists r; auto|].
  destruct (update_rows id f (t_rows t)) as [[l n]|] eqn:E; [|exists r; auto]. cbn. eapply update_keeps; eauto.
Qed.

Lemma one_row (l : list row) r r' : NoDup (map r_id l) -> In r l -> In r' l -> r_id r = r_id r' -> r = r'.
Proof.
  intros Hn Hr Hr' E. induction l as [|x l IH]; [destruct Hr|]. inversion Hn as [|? ? N1 N2]; subst.
  destruct Hr as [->|Hr], Hr' as [->|Hr']; auto; exfalso; apply N1; [rewrite E|rewrite <- E]; apply in_map; assumption.
Qed.

Lemma main_rules : pc_pruners main_pruners =
  [ mk_prune_spec Complete (MaxLength 20) (Only ["cron_job"]); mk_prune_spec Complete (MaxAge 86400000000000) (Except ["cron_job"]);
    mk_prune_spec Discarded (MaxAge 172800000000000) (Except []); mk_prune_spec Cancelled (MaxAge 172800000000000) (Except []) ].
Proof. vm_compute. reflexivity. Qed.
Lemma skipn_in {A} n (l : list A) x : In x (skipn n l) -> In x l.
Proof. revert l. induction n as [|n IH]; intros [|y l] H; cbn in *; auto. Qed.

Lemma sort_in {A} (leb : A -> A -> bool) l x : In x (stable_sort leb l) -> In x l.
Proof. intros H. eapply Permutation_in; [symmetry; apply PgSysProofs.sorted_same|exact H]. Qed.

Lemma step_keeps ident T now t o id tag a b r :
  ids_ok t -> kept_time T -> T <= now <= T + 86400000000000 -> program_op a b o -> (id = a \/ id = b) ->
  In r (t_rows t) -> basic_row T id tag r ->
  exists r', In r' (t_rows (fst (pg_step ident now t o))) /\ basic_row T id tag r'.
Proof.
  intros [Hn _] HT Hnow Ho Hid Hr HP.
  assert (Hpt : T <= pg_time now).
  { rewrite <- (proj1 (pg_time_kept T HT)). apply pg_time_mono. lia. }
  assert (Hsame : exists r', In r' (t_rows t) /\ basic_row T id tag r') by (exists r; auto).
  assert (Hother : forall i ok f, i <> a /\ i <> b -> exists r', In r' (t_rows (fst (pg_update_by_id ok i f t))) /\ basic_row T id tag r').
  { intros i ok f Hi. apply by_id_keeps with (r := r); [exact Hr|exact HP|]. intros r' E. exfalso. destruct HP as [HP _]. destruct Hid; subst; lia. }
  destruct o; cbn [pg_step program_op] in *.
  - (* enqueue *)
    assert (Hins : forall key, exists r', In r' (t_rows (fst (pg_insert now key e t))) /\ basic_row T id tag r').
    { intro key. unfold pg_insert. destruct (negb (pg_request_ok e)); [exact Hsame|]. destruct (2147483647 <? t_next t); [exact Hsame|].
      exists r. split; [apply in_or_app; auto|exact HP]. }
    unfold pg_enqueue. destruct (eq_criteria e) as [uq|] eqn:Euq.
    2:{ specialize (Hins None). destruct (pg_insert now None e t); exact Hins. }
    destruct (Ho uq eq_refl) as [H1 H2]. unfold pg_insert_unique.
    destruct (pg_window uq (eq_scheduled_at e)) as [w|]; [|exact Hsame]. destruct (negb (pg_window_ok uq (eq_executor e) w)); [exact Hsame|].
    destruct (find (pg_conflict uq (eq_executor e) w) (t_rows t)) as [c|] eqn:Ef.
    2:{ specialize (Hins (Some (request_ident ident uq e))). destruct (pg_insert now (Some (request_ident ident uq e)) e t); exact Hins. }
    apply find_some in Ef. destruct Ef as [Hc Hm].
    assert (Hne : r_id r <> r_id c).
    { intro E. assert (r = c) as <- by (eapply one_row; eauto). unfold pg_conflict in Hm. rewrite H1 in Hm.
      apply andb_prop in Hm. destruct Hm as [Hm _]. apply andb_prop in Hm. destruct Hm as [_ Hm]. cbn in Hm. apply String.eqb_eq in Hm.
      destruct HP as [_ [HP _]]. congruence. }
    unfold pg_resolve. destruct (uc_on_conflict uq) as [|rp]; [exact Hsame|].
    destruct (existsb (fun s => String.eqb (label s) (r_status c)) (rp_for_statuses rp)); [|exact Hsame].
    unfold pg_replace. destruct (pg_assignments rp e) as [|x l]; [exact Hsame|]. destruct (forallb fst (x :: l)); [|exact Hsame].
    match goal with |- context [update_rows ?i ?f ?l0] => destruct (update_rows i f l0) as [[rows n]|] eqn:Eu end; [|exact Hsame].
    cbn. eapply update_keeps; [exact Eu|exact Hr|exact HP|]. intros r' E. congruence.
  - (* load *)
    unfold pg_load. destruct (negb (storable executor)); [exact Hsame|].
    destruct (stable_sort pg_leb (filter (pg_ready now executor) (t_rows t))) as [|x l]; [exact Hsame|].
    destruct (update_rows (r_id x) (pg_take now) (t_rows t)) as [[rows n]|] eqn:Eu; [|exact Hsame].
    destruct (pg_take now x) as [x'|]; [|exact Hsame]. cbn. eapply update_keeps; [exact Eu|exact Hr|exact HP|].
    intros r' _ Ht. unfold pg_take in Ht. destruct (int4 (r_attempt r + 1)); [|discriminate]. injection Ht as <-.
    destruct HP as [P1 [P2 [P3 [P4 P5]]]]. repeat split; try assumption. cbn. auto.
  - (* complete *)
    unfold pg_complete. match goal with |- context [pg_update_by_id ?k ?i ?f t] => pose proof (by_id_keeps (basic_row T id tag) k i f t r Hr HP) as K; destruct (pg_update_by_id k i f t) end.
    cbn. apply K. intros r' _ Ht. injection Ht as <-. destruct HP as [P1 [P2 [P3 [P4 P5]]]]. repeat split; try assumption. cbn. auto.
  - unfold pg_retryable. match goal with |- context [pg_update_by_id ?k ?i ?f t] => pose proof (Hother i k f Ho) as K; destruct (pg_update_by_id k i f t) end. exact K.
  - unfold pg_discarded. match goal with |- context [pg_update_by_id ?k ?i ?f t] => pose proof (Hother i k f Ho) as K; destruct (pg_update_by_id k i f t) end. exact K.
  - unfold pg_cancelled. match goal with |- context [pg_update_by_id ?k ?i ?f t] => pose proof (Hother i k f Ho) as K; destruct (pg_update_by_id k i f t) end. exact K.
  - unfold pg_snoozed. match goal with |- context [pg_update_by_id ?k ?i ?f t] => pose proof (Hother i k f Ho) as K; destruct (pg_update_by_id k i f t) end. exact K.
  - (* prune *)
    unfold pg_prune. destruct (pg_doomed now ps (t_rows t)) as [[ids|]|] eqn:Ed; [|exact Hsame|exact Hsame].
    destruct (pg_spec_ok (ps_executors ps)); [|exact Hsame]. cbn. exists r. split; [|exact HP].
    apply filter_In. split; [exact Hr|]. apply Bool.negb_true_iff. destruct (existsb (Z.eqb (r_id r)) ids) eqn:Ex; [exfalso|reflexivity].
    apply existsb_exists in Ex. destruct Ex as [i [Hi E]]. apply Z.eqb_eq in E. subst i.
    assert (Hdoom : forall l, (forall c, In c l -> In c (t_rows t)) -> ids = map r_id l -> In r l).
    { intros l Hl ->. apply in_map_iff in Hi. destruct Hi as [c [E Hc]]. replace r with c; [exact Hc|]. eapply one_row; eauto. }
    destruct HP as [P1 [P2 [P3 [P4 P5]]]].
    rewrite main_rules in Ho. destruct Ho as [<-|[<-|[<-|[<-|[]]]]]; unfold pg_doomed in Ed; cbn [ps_by ps_status in_past] in Ed.
    + set (n20 := Z.to_nat 20) in Ed. clearbody n20. injection Ed as Ed. symmetry in Ed. apply Hdoom in Ed.
      * apply skipn_in, sort_in, filter_In in Ed. destruct Ed as [_ Ed].
        unfold pg_in_scope in Ed. cbn [ps_executors] in Ed. rewrite P2 in Ed. rewrite Bool.andb_false_r in Ed. discriminate.
      * intros c Hc. apply skipn_in, sort_in, filter_In in Hc. apply Hc.
    + destruct (dt_sub now 86400000000000) as [c|] eqn:Ec; [|discriminate]. destruct (time_ok c); [|discriminate]. injection Ed as Ed. symmetry in Ed.
      unfold dt_sub in Ec. cbv zeta in Ec. destruct (in_dt (now - 86400000000000)); [|discriminate]. injection Ec as <-.
      apply Hdoom in Ed; [|intros x Hx; apply filter_In in Hx; destruct Hx as [Hx _]; apply filter_In in Hx; apply Hx].
      apply filter_In in Ed. destruct Ed as [_ Ed]. apply Z.ltb_lt in Ed.
      pose proof (pg_time_mono (now - 86400000000000) T ltac:(lia)) as Hm. rewrite (proj1 (pg_time_kept T HT)) in Hm. unfold time in *. lia.
    + destruct (dt_sub now 172800000000000) as [c|]; [|discriminate]. destruct (time_ok c); [|discriminate]. injection Ed as Ed. symmetry in Ed.
      apply Hdoom in Ed; [|intros x Hx; apply filter_In in Hx; destruct Hx as [Hx _]; apply filter_In in Hx; apply Hx].
      apply filter_In in Ed. destruct Ed as [Ed _]. apply filter_In in Ed. destruct Ed as [_ Ed]. unfold pg_in_scope in Ed. cbn [ps_status label] in Ed.
      destruct P4 as [P4|[P4|[P4|[P4|[]]]]]; rewrite <- P4 in Ed; discriminate.
    + destruct (dt_sub now 172800000000000) as [c|]; [|discriminate]. destruct (time_ok c); [|discriminate]. injection Ed as Ed. symmetry in Ed.
      apply Hdoom in Ed; [|intros x Hx; apply filter_In in Hx; destruct Hx as [Hx _]; apply filter_In in Hx; apply Hx].
      apply filter_In in Ed. destruct Ed as [Ed _]. apply filter_In in Ed. destruct Ed as [_ Ed]. unfold pg_in_scope in Ed. cbn [ps_status label] in Ed.
      destruct P4 as [P4|[P4|[P4|[P4|[]]]]]; rewrite <- P4 in Ed; discriminate.
  - (* rerun *)
    unfold pg_rerun. match goal with |- context [pg_update_by_id ?k ?i ?f t] => pose proof (by_id_keeps (basic_row T id tag) k i f t r Hr HP) as K; destruct (pg_update_by_id k i f t) end.
    cbn. apply K. intros r' _ Ht. destruct (int4 (r_max_attempts r + 1)); [|discriminate]. injection Ht as <-.
    destruct HP as [P1 [P2 [P3 [P4 P5]]]]. repeat split; try assumption. cbn. destruct (r_attempt r =? 1); auto.
  - destruct Ho.
  - exact Hsame.
  - exact Hsame.
  - exact Hsame.
  - exact Hsame.
Qed.

Definition during (T : time) (a b : Z) (h : list (time * mop)) : Prop :=
  Forall (fun '(c, o) => T <= c <= T + 86400000000000 /\ program_op a b o) h.

Lemma run_keeps ident T h id tag a b : kept_time T -> during T a b h -> (id = a \/ id = b) -> forall t r,
  ids_ok t -> In r (t_rows t) -> basic_row T id tag r ->
  exists r', In r' (t_rows (pg_run ident t h)) /\ basic_row T id tag r'.
Proof.
  intros HT Hh Hid. induction Hh as [|[c o] h [Hc Ho] Hh IH]; intros t r Ht Hr HP; [exists r; auto|]. cbn [pg_run].
  destruct (step_keeps ident T c t o id tag a b r Ht HT Hc Ho Hid Hr HP) as [r1 [Hr1 HP1]].
  eapply IH; eauto. apply step_ids. exact Ht.
Qed.

Lemma enqueue_row ident T c t e tag t' i : kept_time T -> T <= eq_scheduled_at e ->
  eq_criteria e = None -> eq_executor e = "basic_job" -> In tag (eq_tags e) ->
  pg_step ident c t (OpEnqueue e) = (t', RId (Ok i)) ->
  i = t_next t /\ t_next t' = t_next t + 1 /\ exists r, In r (t_rows t') /\ basic_row T i tag r.
Proof.
  intros HT Hs Hc He Htag H. cbn [pg_step] in H. unfold pg_enqueue in H. rewrite Hc in H. unfold pg_insert in H.
  destruct (negb (pg_request_ok e)); [discriminate|]. destruct (2147483647 <? t_next t); [discriminate|].
  injection H as <- <-. split; [reflexivity|]. split; [reflexivity|]. eexists. split; [apply in_or_app; right; left; reflexivity|].
  split; [reflexivity|]. split; [exact He|]. split; [exact Htag|]. split; [left; reflexivity|]. cbn.
  rewrite <- (proj1 (pg_time_kept T HT)). apply pg_time_mono. exact Hs.
Qed.

Lemma row_job t js r : holds_jobs t js -> In r (t_rows t) -> exists j, In j js /\ represents r j.
Proof.
  unfold holds_jobs. intros H. induction H as [|x y l l' Hx H IH]; intros Hr; [destruct Hr|].
  destruct Hr as [->|Hr]; [exists y; split; [left; reflexivity|exact Hx]|]. destruct (IH Hr) as [j [H1 H2]]. exists j. split; [right; exact H1|exact H2].
Qed.

Lemma two_in {A} (l : list A) x y : In x l -> In y l -> x <> y -> (2 <= length l)%nat.
Proof.
  intros Hx Hy Hn. destruct l as [|u [|v l]]; cbn in *; [destruct Hx|destruct Hx as [->|[]], Hy as [->|[]]; congruence|lia].
Qed.

(** The jobs the query asks for. *)
Definition wanted (now : time) (j : job) : Prop :=
  j_executor j = "basic_job" /\ (In "second_job" (j_tags j) \/ In "initial_job" (j_tags j))
  /\ j_status j <> Discarded /\ j_status j <> Cancelled /\ now - seconds 600 < j_scheduled_at j.

Lemma has_tag_iff ts s : has_tag ts s = true <-> In s ts.
Proof.
  unfold has_tag. rewrite existsb_exists. split; [intros [x [Hx E]]; apply String.eqb_eq in E; subst; exact Hx|].
  intro H. exists s. split; [exact H|apply String.eqb_refl].
Qed.
Lemma status_neq a b : negb (status_eqb a b) = true <-> a <> b.
Proof. destruct a, b; cbn; intuition congruence. Qed.

(** When all basic jobs decode, the program ends well exactly if there are two such jobs. *)
Theorem C115_query : forall now t js,
  kept_time (now - seconds 600) -> dt_min <= now - seconds 600 <= dt_max -> holds_jobs t js -> NoDup (map j_id js) ->
  (forall j, In j js -> j_executor j = "basic_job" -> well_typed basic_codec j /\ counters_u16 j) ->
  (main_ends now (fun q => pg_query q t) = true
   <-> exists j1 j2, In j1 js /\ In j2 js /\ j_id j1 <> j_id j2 /\ wanted now j1 /\ wanted now j2).
Proof.
  intros now t js Hk Hdt Hjs Hnd Hwt.
  unfold main_ends, recent_basic, where_within_the_last, dt_sub. cbv zeta.
  replace (10 * (60 * ns_per_s)) with (seconds 600) by (vm_compute; reflexivity).
  replace (in_dt (now - seconds 600)) with true by (symmetry; unfold in_dt; apply andb_true_intro; split; apply Z.leb_le; lia).
  unfold wanted. set (cut := now - seconds 600) in *. clearbody cut. cbn [option_map where_and where_not app].
  pose (q := QAnd [QTagsOneOf ["second_job"; "initial_job"]; QNot (QStatusEqual Discarded); QNot (QStatusEqual Cancelled);
                   QScheduledAtAfter cut; QExecutorEqual "basic_job"]).
  change (match match lift_backend (pg_query q t) with
                | ROk l => typed_of_stored_all basic_codec l | RErr e => RErr e | RPanic => RPanic end with
          | ROk l => (2 <=? length l)%nat | _ => false end = true
    <-> exists j1 j2, In j1 js /\ In j2 js /\ j_id j1 <> j_id j2 /\
         (j_executor j1 = "basic_job" /\ (In "second_job" (j_tags j1) \/ In "initial_job" (j_tags j1))
          /\ j_status j1 <> Discarded /\ j_status j1 <> Cancelled /\ cut < j_scheduled_at j1) /\
         (j_executor j2 = "basic_job" /\ (In "second_job" (j_tags j2) \/ In "initial_job" (j_tags j2))
          /\ j_status j2 <> Discarded /\ j_status j2 <> Cancelled /\ cut < j_scheduled_at j2)).
  assert (Hclean : forall s, In s ["second_job"; "initial_job"; "basic_job"] -> clean s).
  { intros s Hs n. destruct Hs as [<-|[<-|[<-|[]]]]; do 12 (destruct n as [|n]; [discriminate|]); destruct n; discriminate. }
  assert (Hplain : plain Conjunct q).
  { apply pl_and; [discriminate|discriminate|]. intros x [<-|[<-|[<-|[<-|[<-|[]]]]]].
    - apply pl_tags_one. repeat constructor; apply Hclean; cbn; auto.
    - apply pl_not, pl_status.
    - apply pl_not, pl_status.
    - apply pl_after. exact Hk.
    - apply pl_executor, Hclean. cbn; auto. }
  destruct (pg_query_plain Conjunct q _ js Hplain Hjs) as [l [-> [Hperm _]]]. cbn [lift_backend].
  assert (Hmatch : forall j, query_matches q j = true <->
     (j_executor j = "basic_job" /\ (In "second_job" (j_tags j) \/ In "initial_job" (j_tags j))
      /\ j_status j <> Discarded /\ j_status j <> Cancelled /\ cut < j_scheduled_at j)).
  { intro j. subst q. cbn [query_matches forallb existsb]. rewrite !Bool.andb_true_iff, !Bool.orb_true_iff, !has_tag_iff, !status_neq, Z.ltb_lt, String.eqb_eq.
    intuition discriminate. }
  assert (Hl : forall j, In j l <-> In j js /\ query_matches q j = true).
  { intro j. rewrite <- filter_In. split; apply Permutation_in; [exact Hperm|symmetry; exact Hperm]. }
  assert (Hndl : NoDup (map j_id l)).
  { apply (Permutation_NoDup (l := map j_id (filter (query_matches q) js))); [apply Permutation_map; symmetry; exact Hperm|].
    clear -Hnd. generalize (query_matches q). clear q. intro f. induction js as [|j js IH]; cbn; [constructor|]. inversion Hnd as [|? ? N1 N2]; subst. specialize (IH N2).
    destruct (f j); [|exact IH]. cbn. constructor; [|exact IH]. intro H. apply N1. apply in_map_iff in H. destruct H as [x [E Hx]].
    rewrite <- E. apply in_map. apply filter_In in Hx. apply Hx. }
  destruct (typed_all_ok basic_codec l) as [ts [-> Hf]].
  { intros x v H. injection H as <-. reflexivity. }
  { intros x v H. injection H as <-. reflexivity. }
  { intros j Hj. apply Hl in Hj. destruct Hj as [Hj Hm]. apply Hwt; [exact Hj|]. apply Hmatch in Hm. apply Hm. }
  assert (Hlen : length l = length ts) by (clear -Hf; induction Hf; cbn; congruence). rewrite <- Hlen. rewrite Nat.leb_le. split.
  - intro H2. destruct l as [|j1 [|j2 l]]; cbn in H2; [lia|lia|]. exists j1, j2.
    destruct (proj1 (Hl j1) (or_introl eq_refl)) as [A1 A2]. destruct (proj1 (Hl j2) (or_intror (or_introl eq_refl))) as [B1 B2].
    apply Hmatch in A2. apply Hmatch in B2. split; [exact A1|]. split; [exact B1|]. split; [|split; assumption].
    cbn in Hndl. inversion Hndl as [|? ? N1 _]; subst. intro E. apply N1. left. auto.
  - intros [j1 [j2 [A1 [B1 [Hne [A2 B2]]]]]]. apply (two_in l j1 j2); [apply Hl; split; [exact A1|apply Hmatch; exact A2]|apply Hl; split; [exact B1|apply Hmatch; exact B2]|].
    congruence.
Qed.
Print Assumptions C115_query.

(** It panics if the query fails, or if there is no instant ten minutes ago. *)
Theorem C115_panics : forall now backend,
  (forall q, exists e, backend q = Err e) \/ (forall q, backend q = Panic) \/ now - seconds 600 < dt_min ->
  main_ends now backend = false.
Proof.
  intros now backend H. unfold main_ends, recent_basic, where_within_the_last, dt_sub. cbv zeta.
  replace (10 * (60 * ns_per_s)) with (seconds 600) by (vm_compute; reflexivity).
  destruct (in_dt (now - seconds 600)) eqn:Ei; [|reflexivity]. cbn [option_map where_and where_not app].
  unfold query_jobs_on. match goal with |- context [query_of_where ?a ?b ?w] => destruct (query_of_where a b w) as [q|] end; [|reflexivity].
  destruct H as [H|[H|H]].
  - destruct (H (for_executor q (ex_name basic_consts))) as [e ->]. reflexivity.
  - rewrite H. reflexivity.
  - exfalso. unfold in_dt in Ei. apply andb_prop in Ei. destruct Ei as [Ei _]. apply Z.leb_le in Ei. lia.
Qed.
Print Assumptions C115_panics.

(** [main] enqueues its first job at the clock [c1] and its second at [c2], with anything the program
    and others do in between and afterwards; all within a day of [T].  If it then is not yet ten
    minutes after [T] when [main] queries, and all basic jobs the table then holds are jobs of that
    executor, the query finds both of them and the program ends well. *)
Theorem C115_ends : forall ident T t0 m1 n1 e1 c1 t1 a h0 m2 e2 c2 t2 b h now js,
  kept_time T -> ids_ok t0 -> sane n1 -> T <= n1 + seconds 2 -> T <= m2 ->
  first_request m1 n1 = Some e1 -> second_request m2 = Some e2 ->
  pg_step ident c1 t0 (OpEnqueue e1) = (t1, RId (Ok a)) -> during T a a h0 ->
  pg_step ident c2 (pg_run ident t1 h0) (OpEnqueue e2) = (t2, RId (Ok b)) -> during T a b h ->
  T <= c2 <= T + seconds 86400 ->
  now - seconds 600 < T -> kept_time (now - seconds 600) -> dt_min <= now - seconds 600 <= dt_max ->
  holds_jobs (pg_run ident t2 h) js ->
  (forall j, In j js -> j_executor j = "basic_job" -> well_typed basic_codec j /\ counters_u16 j) ->
  main_ends now (fun q => pg_query q (pg_run ident t2 h)) = true.
Proof.
  intros ident T t0 m1 n1 e1 c1 t1 a h0 m2 e2 c2 t2 b h now js HT Ht0 Hsane Hn1 Hm2 He1 He2 Hq1 Hh0 Hq2 Hh Hc2 Hnow Hk Hdt Hjs Hwt.
  destruct (C113_requests m1 n1 Hsane) as [R1 _]. rewrite He1 in R1. injection R1 as ->.
  destruct (C113_requests m2 n1 Hsane) as [_ [R2 _]]. rewrite He2 in R2. injection R2 as ->.
  assert (Ht1 : ids_ok t1).
  { match type of Hq1 with pg_step _ _ _ ?o = _ => pose proof (proj1 (step_ids ident c1 t0 o Ht0)) as K end. rewrite Hq1 in K. exact K. }
  destruct (run_ids ident h0 t1 Ht1) as [Hi0 Hle].
  assert (Ht2 : ids_ok t2).
  { match type of Hq2 with pg_step _ _ _ ?o = _ => pose proof (proj1 (step_ids ident c2 _ o Hi0)) as K end. rewrite Hq2 in K. exact K. }
  apply (enqueue_row ident T) with (tag := "initial_job") in Hq1 as Hr1; [|exact HT|exact Hn1|reflexivity|reflexivity|cbn; auto].
  destruct Hr1 as [Ea [En1 [r1 [Hr1 HP1]]]].
  apply (run_keeps ident T h0 a "initial_job" a a HT Hh0 (or_introl eq_refl) t1 r1 Ht1 Hr1) in HP1. clear r1 Hr1. destruct HP1 as [r1 [Hr1 HP1]].
  assert (Hab : a <> b).
  { apply (enqueue_row ident T) with (tag := "second_job") in Hq2; [|exact HT|exact Hm2|reflexivity|reflexivity|cbn; auto].
    destruct Hq2 as [-> _]. lia. }
  match type of Hq2 with pg_step _ _ _ ?o = _ =>
    destruct (step_keeps ident T c2 (pg_run ident t1 h0) o a "initial_job" a a r1 Hi0 HT Hc2) as [r1' [Hr1' HP1']];
      [cbn; intros uq Hu; discriminate|auto|exact Hr1|exact HP1|] end.
  rewrite Hq2 in Hr1'. cbn [fst] in Hr1'.
  apply (enqueue_row ident T) with (tag := "second_job") in Hq2; [|exact HT|exact Hm2|reflexivity|reflexivity|cbn; auto].
  destruct Hq2 as [_ [_ [r2 [Hr2 HP2]]]].
  destruct (run_keeps ident T h a "initial_job" a b HT Hh (or_introl eq_refl) t2 r1' Ht2 Hr1' HP1') as [ra [Hra HPa]].
  destruct (run_keeps ident T h b "second_job" a b HT Hh (or_intror eq_refl) t2 r2 Ht2 Hr2 HP2) as [rb [Hrb HPb]].
  destruct (row_job _ _ ra Hjs Hra) as [ja [Hja Rja]]. destruct (row_job _ _ rb Hjs Hrb) as [jb [Hjb Rjb]].
  assert (Hids : NoDup (map j_id js)).
  { destruct (proj1 (run_ids ident h t2 Ht2)) as [Hn _]. replace (map j_id js) with (map r_id (t_rows (pg_run ident t2 h))); [exact Hn|].
    clear -Hjs. unfold holds_jobs in Hjs. induction Hjs as [|x y l l' Hx H IH]; [reflexivity|]. cbn. rewrite IH. f_equal. apply Hx. }
  assert (Hw : forall r j id tag, In tag ["initial_job"; "second_job"] -> basic_row T id tag r -> represents r j -> j_id j = id /\ wanted now j).
  { intros r j id tag Htag [P1 [P2 [P3 [P4 P5]]]] R. destruct R as [E1 [E2 [E3 [_ [_ [_ [_ [_ [E9 [_ [_ [E12 _]]]]]]]]]]]].
    split; [congruence|]. unfold wanted. rewrite <- E3, <- E9, <- E12. split; [exact P2|]. split; [destruct Htag as [<-|[<-|[]]]; auto|].
    assert (Hst : j_status j <> Discarded /\ j_status j <> Cancelled).
    { inversion E2 as [Es El|Es El|Es El|Es El|Es El|Es El]; split; try discriminate; intros _; rewrite <- El in P4; cbn in P4; intuition discriminate. }
    split; [apply Hst|]. split; [apply Hst|]. lia. }
  destruct (Hw ra ja a "initial_job" ltac:(cbn; auto) HPa Rja) as [Eja Hla].
  destruct (Hw rb jb b "second_job" ltac:(cbn; auto) HPb Rjb) as [Ejb Hlb].
  apply (C115_query now _ js Hk Hdt Hjs Hids Hwt). exists ja, jb. repeat (split; [assumption|]). split; [congruence|]. split; assumption.
Qed.
Print Assumptions C115_ends.

(** The two jobs are enqueued two seconds apart, the first is taken and done, the pruner runs, the
    second is taken and rerun, a snooze job snoozes, and [main] queries 25 s after it began. *)
Definition end_before : list (time * mop) := [ (seconds 101, OpPrune (mk_prune_spec Complete (MaxLength 20) (Only ["cron_job"]))) ].
Definition end_after (e : enqueuable) : list (time * mop) :=
  [ (seconds 103, OpLoad "basic_job"); (seconds 104, OpComplete 1); (seconds 104, OpEnqueue e);
    (seconds 104, OpPrune (mk_prune_spec Complete (MaxAge (seconds 86400)) (Except ["cron_job"])));
    (seconds 105, OpLoad "snooze_job"); (seconds 105, OpSnoozed 3 (seconds 108)); (seconds 106, OpLoad "basic_job"); (seconds 107, OpRerun 2) ].
Example C115_example : exists e1 e2 e3 t1 t2 js,
  first_request (seconds 100) (seconds 100) = Some e1 /\ second_request (seconds 102) = Some e2 /\ snooze_request (seconds 104) = Some e3
  /\ pg_step fx_identifier (seconds 100) tbl_init (OpEnqueue e1) = (t1, RId (Ok 1)) /\ during (seconds 100) 1 1 end_before
  /\ pg_step fx_identifier (seconds 102) (pg_run fx_identifier t1 end_before) (OpEnqueue e2) = (t2, RId (Ok 2)) /\ during (seconds 100) 1 2 (end_after e3)
  /\ holds_jobs (pg_run fx_identifier t2 (end_after e3)) js /\ map j_status js = [Complete; Scheduled; Scheduled]
  /\ (forall j, In j js -> j_executor j = "basic_job" -> well_typed basic_codec j /\ counters_u16 j)
  /\ main_ends (seconds 125) (fun q => pg_query q (pg_run fx_identifier t2 (end_after e3))) = true.
Proof.
  do 6 eexists. split; [vm_compute; reflexivity|]. split; [vm_compute; reflexivity|]. split; [vm_compute; reflexivity|].
  split; [vm_compute; reflexivity|].
  split; [apply Forall_cons; [split; [lia|cbn [program_op]; rewrite main_rules; left; reflexivity]|apply Forall_nil]|].
  split; [vm_compute; reflexivity|].
  split.
  { unfold during, end_after. repeat (apply Forall_cons; [split; [lia|]|]); try apply Forall_nil; cbn [program_op]; try exact Logic.I; try lia.
    - intros uq Hu. injection Hu as <-. split; [reflexivity|discriminate].
    - rewrite main_rules. right. left. reflexivity. }
  split; [apply read_rows_inv; vm_compute; reflexivity|]. split; [vm_compute; reflexivity|].
  split; [|vm_compute; reflexivity].
  intros j Hj He. destruct Hj as [<-|[<-|[<-|[]]]]; [| |discriminate He]; (split; [split|unfold counters_u16; cbn; lia]); cbn.
  - exists "First job". reflexivity.
  - exists (Some "Delayed attempt"). reflexivity.
  - exists "Second job". reflexivity.
  - exists None. reflexivity.
Qed.
(** Without the second job there are not two; and a table the server cannot read from. *)
Example C115_query_example : exists e1 t1 js,
  first_request (seconds 100) (seconds 100) = Some e1 /\ pg_step fx_identifier (seconds 100) tbl_init (OpEnqueue e1) = (t1, RId (Ok 1))
  /\ kept_time (seconds 125 - seconds 600) /\ holds_jobs t1 js /\ NoDup (map j_id js) /\ length js = 1%nat
  /\ (forall j, In j js -> j_executor j = "basic_job" -> well_typed basic_codec j /\ counters_u16 j)
  /\ main_ends (seconds 125) (fun q => pg_query q t1) = false
  /\ main_ends (seconds 125) (fun q => Err BadState) = false.
Proof.
  do 3 eexists. split; [vm_compute; reflexivity|]. split; [vm_compute; reflexivity|].
  split; [split; [exists (-475000000); reflexivity|lia]|].
  split; [apply read_rows_inv; vm_compute; reflexivity|]. split; [repeat constructor; intros []|]. split; [reflexivity|].
  split; [|split; vm_compute; reflexivity].
  intros j [<-|[]] _. split; [split|unfold counters_u16; cbn; lia]; cbn; [exists "First job"|exists (Some "Delayed attempt")]; reflexivity.
Qed.

(** * C116 The ticks *)

(** The keys of the program's requests: [fxhash::hash64] of the cron schedules' data, and the keys
    their rows and those of the snooze jobs are stored with (unique.rs). *)
Definition tick_key (data : string) : Z := as_i64 (hash_str 0 data).
Definition stored_keys : list (option Z) :=
  [ None; Some (fx_identifier (Some (tick_key "tick")) (Some "cron_job") [Scheduled]);
    Some (fx_identifier (Some (tick_key "tock")) (Some "cron_job") [Scheduled]);
    Some (fx_identifier None (Some "snooze_job") [Scheduled]) ].
Definition program_keys (t : tbl) : Prop := forall r, In r (t_rows t) -> In (r_uniqueness_key r) stored_keys.

(** A schedule fires: cron_runner.rs 76-91 with the example's executor on Postgres. *)
Definition fire (t : tbl) (f : string * (time * time)) : tbl :=
  fst (cron_enqueue cron_codec cron_consts (fst f) (hash_str 0 (fst f)) (fst (snd f)) (snd (snd f))
         (fun t e => match pg_step fx_identifier (fst (snd f)) t (OpEnqueue e) with
                     | (t', RId r) => (t', r) | (t', _) => (t', Panic) end) t).
Definition firing (f : string * (time * time)) : Prop :=
  (fst f = "tick" \/ fst f = "tock") /\ kept_time (fst (snd f)) /\ kept_time (snd (snd f)) /\ dt_min <= snd (snd f) <= dt_max.
(** The job of a firing. *)
Definition tick_job (f : string * (time * time)) (x : job) : Prop :=
  j_executor x = "cron_job" /\ j_data x = JStr (fst f) /\ j_metadata x = JNull /\ j_scheduled_at x = snd (snd f)
  /\ j_status x = Scheduled /\ j_attempt x = 0 /\ j_max_attempts x = 1 /\ j_priority x = 0.

Lemma one_tick t js f : firing f -> holds_jobs t js -> NoDup (map j_id js) -> program_keys t -> t_next t <= 2147483647 ->
  exists x, holds_jobs (fire t f) (js ++ [x])%list /\ tick_job f x /\ j_id x = t_next t /\ program_keys (fire t f) /\ t_next (fire t f) = t_next t + 1.
Proof.
  destruct f as [data [now n]]. intros [Hd [Hnow [Hn Hdt]]] Ht Hnd Hk Hb. cbn [fst snd] in *.
  unfold fire. cbn [fst snd]. unfold cron_enqueue, enqueue_to, request, cron_builder. cbn -[pg_step].
  match goal with |- context [OpEnqueue ?e0] => set (e := e0) end.
  assert (He : kept_request e).
  { split; [apply clean_by_storable; reflexivity|]. split; [destruct Hd as [-> | ->]; apply clean_by_storable; reflexivity|].
    split; [exact Logic.I|]. split; [exact Hn|constructor]. }
  assert (Hw : kept_window e).
  { intros uq d Hu Hdd. injection Hu as <-. injection Hdd as <-. cbn. rewrite Z.sub_0_r, Z.add_0_r. auto. }
  assert (Hr : replaces_something e) by (intros uq r Hu Hrr; injection Hu as <-; discriminate).
  assert (Hnone : forall r, In r (t_rows t) -> r_uniqueness_key r <> Some (tick_key data)).
  { intros r Hrr E. specialize (Hk r Hrr). rewrite E in Hk. destruct Hd as [-> | ->]; vm_compute in Hk; intuition discriminate. }
  pose proof (C10_conflict_replacement_postgres fx_identifier t js now e Ht Hnd Hnow He Hw Hr Hb) as H.
  destruct (pg_step fx_identifier now t (OpEnqueue e)) as [t' res].
  destruct H as [[r [j [js' [H1 [_ [[uq' [E [H3 _]]] _]]]]]]|[_ [-> [r [-> [H3 H4]]]]]].
  { exfalso. injection E as <-. exact (Hnone r H1 (H3 _ eq_refl)). }
  exists (new_job now (t_next t) e). cbn [fst].
  split; [apply Forall2_app; [exact Ht|constructor; [exact H3|constructor]]|]. split; [repeat split|]. split; [reflexivity|]. split; [|reflexivity].
  intros r' Hr'. cbn in Hr'. apply in_app_or in Hr'. destruct Hr' as [Hr'|[<-|[]]]; [apply Hk; exact Hr'|]. rewrite H4.
  destruct Hd as [-> | ->]; vm_compute; auto.
Qed.

(** However the firings of however many copies of the program follow each other, each makes a job of
    its own: none is taken for the job of another firing, be it for the same instant. *)
Theorem C116_every_tick : forall fs t js,
  Forall firing fs -> holds_jobs t js -> ids_ok t -> program_keys t -> t_next t + Z.of_nat (length fs) <= 2147483648 ->
  exists xs, holds_jobs (fold_left fire fs t) (js ++ xs)%list /\ Forall2 tick_job fs xs
    /\ map j_id xs = map (fun k => t_next t + Z.of_nat k) (seq 0 (length fs)) /\ program_keys (fold_left fire fs t).
Proof.
  induction fs as [|f fs IH]; intros t js Hf Ht Hi Hk Hb.
  { exists []. cbn. rewrite app_nil_r. auto. }
  inversion Hf as [|? ? F1 F2]; subst. cbn [length] in Hb.
  assert (Hids : map j_id js = map r_id (t_rows t)).
  { clear -Ht. unfold holds_jobs in Ht. induction Ht as [|x y l l' Hx H IH]; [reflexivity|]. cbn. rewrite IH. f_equal. symmetry. apply Hx. }
  destruct (one_tick t js f F1 Ht ltac:(rewrite Hids; apply Hi) Hk ltac:(lia)) as [x [H1 [H2 [H3 [H4 H5]]]]].
  assert (Hi' : ids_ok (fire t f)).
  { unfold fire, cron_enqueue, enqueue_to. match goal with |- context [request ?c ?e ?b] => destruct (request c e b) as [e0|] end; [|exact Hi].
    pose proof (proj1 (step_ids fx_identifier (fst (snd f)) t (OpEnqueue e0) Hi)) as K.
    destruct (pg_step fx_identifier (fst (snd f)) t (OpEnqueue e0)) as [t' []]; exact K. }
  destruct (IH (fire t f) (js ++ [x])%list F2 H1 Hi' H4) as [xs [G1 [G2 [G3 G4]]]]; [rewrite H5; lia|].
  exists (x :: xs). cbn [fold_left]. rewrite <- app_assoc in G1. split; [exact G1|]. split; [constructor; assumption|]. split; [|exact G4].
  cbn [map length seq]. rewrite H3, G3, H5, <- seq_shift, map_map. f_equal; [lia|]. apply map_ext. intro k. lia.
Qed.
Print Assumptions C116_every_tick.

(** Two copies of the program: two ticks and a tock for one second. *)
Example C116_example :
  Forall firing [("tick", (seconds 9, seconds 10)); ("tock", (seconds 9, seconds 10)); ("tick", (seconds 9, seconds 10))]
  /\ map (fun r => (r_id r, r_data r, r_scheduled_at r))
       (t_rows (fold_left fire [("tick", (seconds 9, seconds 10)); ("tock", (seconds 9, seconds 10)); ("tick", (seconds 9, seconds 10))] tbl_init))
     = [(1, JStr "tick", seconds 10); (2, JStr "tock", seconds 10); (3, JStr "tick", seconds 10)]
  /\ ids_ok tbl_init /\ program_keys tbl_init /\ holds_jobs tbl_init [].
Proof.
  split.
  { assert (K : forall k, 0 <= k <= 10 -> kept_time (seconds k)) by (intros k H; split; [exists (k * 1000000); lia|lia]).
    assert (F : forall d, d = "tick" \/ d = "tock" -> firing (d, (seconds 9, seconds 10))).
    { intros d Hd. split; [exact Hd|]. split; [apply K; lia|]. split; [apply K; lia|]. vm_compute. split; discriminate. }
    repeat (apply Forall_cons; [apply F; auto|]). apply Forall_nil. }
  split; [vm_compute; reflexivity|]. split; [apply ids_ok_init|]. split; [intros r []|constructor].
Qed.
