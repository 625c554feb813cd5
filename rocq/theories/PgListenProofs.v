(** Lemmas about workers on Postgres. *)
From Coq Require Import Permutation Sorted.
From Verif Require Import Base Chrono Types TypesProofs Query QueryProofs Memory MemSpec MemProofs
  MemInv MemWake PgRow PgQuery Pg PgSpec PgProofs PgQueryProofs PgOps PgHist PgConc PgConcSpec PgConcProofs PgConcHist
  PgConcUniq PgConcLive PgConcPast PgListen PgListenSpec.

Section Listen.
Variable ident : option Z -> option string -> list status -> Z.

Lemma nrun_app s l1 l2 : nrun ident s (l1 ++ l2) = nrun ident (nrun ident s l1) l2.
Proof. revert s. induction l1 as [|l l1 IH]; intro s; cbn; [reflexivity|apply IH]. Qed.
Lemma ntrace_app s l1 l2 : ntrace ident s (l1 ++ l2) = ntrace ident s l1 ++ ntrace ident (nrun ident s l1) l2.
Proof. revert s. induction l1 as [|l l1 IH]; intro s; cbn; [reflexivity|]. rewrite IH, app_assoc. reflexivity. Qed.
Lemma nrun_snoc s ls l : nrun ident s (ls ++ [l]) = fst (nstep ident (nrun ident s ls) l).
Proof. rewrite nrun_app. reflexivity. Qed.
Lemma ntrace_snoc s ls l : ntrace ident s (ls ++ [l]) = ntrace ident s ls ++ snd (nstep ident (nrun ident s ls) l).
Proof. rewrite ntrace_app. cbn. rewrite app_nil_r. reflexivity. Qed.
Lemma db_events_app a b : db_events (a ++ b) = db_events a ++ db_events b.
Proof. apply flat_map_app. Qed.
Lemma db_events_db evs : db_events (map NvDb evs) = evs.
Proof. unfold db_events. induction evs as [|e evs IH]; cbn; [reflexivity|]. rewrite IH. reflexivity. Qed.

(** * The database part is an execution of PgConc.v *)

Lemma pstream_step_events now db k st ph call evs : pstream_step now db k st = (ph, call, evs) ->
  db_events evs = [] /\ (evs = [] \/ exists i j t read d o, evs = [NvYield k i j] /\ s_phase st = PLoading t read d i /\ ph = PYield (Ok j)
    /\ nth_error (q_calls db) i = Some (mk_qcall o (QDone (RJob (Ok (Some j)))))).
Proof.
  unfold pstream_step. intro H. destruct (s_phase st) as [|t|t read d|t read d i|t read d|t read slept d|r] eqn:E;
    try (injection H as <- <- <-; split; [reflexivity|left; reflexivity]).
  destruct (nth_error (q_calls db) i) as [[o pc]|] eqn:Hc; [|injection H as <- <- <-; auto].
  destruct pc as [| | | | | | | | | |r]; try (injection H as <- <- <-; auto).
  destruct (load_item r) as [[j|e|]|] eqn:El; injection H as <- <- <-; auto.
  split; [reflexivity|]. right. exists i, j, t, read, d, o. repeat split; auto.
  destruct r as [ri|ru|[[j'|]|e|]|rj]; cbn in El; try discriminate; [injection El as ->; exact Hc|destruct e; discriminate].
Qed.

Lemma db_step_label s l : exists qs, n_db (fst (nstep ident s l)) = qrun ident (n_db s) qs
  /\ db_events (snd (nstep ident s l)) = qtrace ident (n_db s) qs
  /\ match l with NDb q => qs = [q] | _ => qs = [] \/ exists o, qs = [QCall o] end.
Proof.
  destruct l as [q| |c|c|c|c ex|k now|k|k]; cbn [nstep].
  - exists [q]. unfold db_step. cbn [qrun qtrace]. destruct (qstep ident (n_db s) q) as [db evs]. cbn. rewrite app_nil_r.
    split; [reflexivity|]. split; [apply db_events_db|reflexivity].
  - exists []. cbn. auto.
  - exists []. destruct (nth_error (n_clients s) c) as [[[] [|n rest]]|]; try destruct (note_readable n); cbn; auto.
  - exists []. destruct (nth_error (n_clients s) c); cbn; auto.
  - exists []. destruct (nth_error (n_clients s) c); cbn; auto.
  - exists []. destruct (nth_error (n_clients s) c); cbn; auto.
  - destruct (nth_error (n_streams s) k) as [st|]; [|exists []; cbn; auto].
    destruct (pstream_step now (n_db s) k st) as [[ph call] evs] eqn:E. destruct (pstream_step_events _ _ _ _ _ _ _ E) as [Hd _].
    destruct call as [o|].
    + exists [QCall o]. split; [reflexivity|]. split; [exact Hd|]. right. exists o. reflexivity.
    + exists []. cbn. auto.
  - exists []. destruct (nth_error (n_streams s) k) as [[c ex [|m q] []]|]; cbn; auto.
  - exists []. destruct (nth_error (n_streams s) k) as [[c ex q []]|]; cbn; auto.
Qed.

Lemma projection s ls : exists qs, n_db (nrun ident s ls) = qrun ident (n_db s) qs
  /\ db_events (ntrace ident s ls) = qtrace ident (n_db s) qs.
Proof.
  revert s. induction ls as [|l ls IH]; intro s.
  - exists []. split; reflexivity.
  - destruct (db_step_label s l) as [q1 [H1 [H2 _]]]. destruct (IH (fst (nstep ident s l))) as [q2 [H3 H4]].
    exists (q1 ++ q2). cbn [nrun ntrace]. rewrite db_events_app, qrun_app, qtrace_app, H2, H3, H4, <- H1. auto.
Qed.

Lemma found_inv t ls : sound_table t -> qinv (n_db (nrun ident (n_found t) ls)).
Proof.
  intro Ht. destruct (projection (n_found t) ls) as [qs [-> _]]. apply run_inv. apply (inv_opened t Ht).
Qed.

(** * Sleeping *)

Definition timed (st : pstream) : Prop :=
  match s_phase st with
  | PTry t read d | PLoading t read d _ | PSelect t read d | PWait t read _ d => d = pg_delay t read
  | _ => True
  end.

Lemma pstream_step_timed now db k st ph call evs : pstream_step now db k st = (ph, call, evs) -> timed st -> timed (set_phase ph st).
Proof.
  unfold pstream_step, timed. intros H Ht. cbn [set_phase s_phase].
  destruct (s_phase st) as [|t|t read d|t read d i|t read d|t read slept d|r] eqn:E; try (injection H as <- <- <-); auto.
  - destruct (pg_next_available (s_executor st) (q_tbl db)); exact I.
  - destruct (pg_delay t now <=? pg_delta); reflexivity.
  - destruct (nth_error (q_calls db) i) as [[o []]|]; try (injection H as <- <- <-; exact Ht).
    destruct (load_item r) as [[]|]; injection H as <- <- <-; auto.
  - destruct (slept + d <=? now); auto.
Qed.

Lemma nth_map {A B} (f : A -> B) l k y : nth_error (map f l) k = Some y -> exists x, nth_error l k = Some x /\ y = f x.
Proof. rewrite nth_error_map. destruct (nth_error l k) as [x|]; cbn; [|discriminate]. intro H. injection H as <-. eauto. Qed.

(** What one step does to the streams. *)
Lemma stream_step_cases s l k st' : nth_error (n_streams (fst (nstep ident s l))) k = Some st' ->
  (exists st, nth_error (n_streams s) k = Some st /\
     (st' = st
      \/ (exists c n rest, l = NDeliver c /\ nth_error (n_clients s) c = Some (mk_client true (n :: rest)) /\ note_readable n = true /\ st' = pass_on c n st)
      \/ (exists now ph call evs, l = NStream k now /\ pstream_step now (n_db s) k st = (ph, call, evs) /\ st' = set_phase ph st)
      \/ (exists m q t read slept d, l = NRecv k /\ s_queue st = m :: q /\ s_phase st = PWait t read slept d /\ st' = set_phase PCheck (set_queue q st))
      \/ (l = NError k /\ s_phase st = PCheck /\ st' = set_phase (PYield (Err BadState)) st)))
  \/ (exists c ex cl, l = NSubscribe c ex /\ nth_error (n_clients s) c = Some cl /\ k = length (n_streams s) /\ st' = mk_pstream c ex [] PCheck).
Proof.
  intro H. assert (Hsame : nth_error (n_streams s) k = Some st' -> exists st, nth_error (n_streams s) k = Some st /\ st' = st) by eauto.
  destruct l as [q| |c|c|c|c ex|k0 now|k0|k0]; cbn [nstep] in H.
  - unfold db_step in H. destruct (qstep ident (n_db s) q) as [db evs]. cbn in H. left. eauto.
  - left. eauto.
  - destruct (nth_error (n_clients s) c) as [[[] [|n rest]]|] eqn:Ec; try (left; eauto; fail).
    destruct (note_readable n) eqn:En; cbn in H; [|left; eauto; fail].
    apply nth_map in H. destruct H as [st [Hk ->]]. left. exists st. split; [exact Hk|]. right. left. exists c, n, rest. auto.
  - left. destruct (nth_error (n_clients s) c); cbn in H; eauto.
  - left. destruct (nth_error (n_clients s) c); cbn in H; eauto.
  - destruct (nth_error (n_clients s) c) as [cl|] eqn:Ec; [|left; eauto]. cbn in H.
    destruct (Nat.lt_ge_cases k (length (n_streams s))) as [Hl|Hl].
    + rewrite nth_error_app1 in H by exact Hl. left. eauto.
    + rewrite nth_error_app2 in H by exact Hl. destruct (k - length (n_streams s))%nat as [|m] eqn:Em; cbn in H.
      * injection H as <-. right. exists c, ex, cl. repeat split; auto. lia.
      * destruct m; discriminate.
  - destruct (nth_error (n_streams s) k0) as [st|] eqn:Ek; [|left; eauto].
    destruct (pstream_step now (n_db s) k0 st) as [[ph call] evs] eqn:E. cbn [fst n_streams] in H.
    apply nth_set in H. destruct H as [[-> [-> _]]|[_ H]]; left; [|eauto].
    exists st. split; [exact Ek|]. right. right. left. exists now, ph, call, evs. auto.
  - destruct (nth_error (n_streams s) k0) as [[c ex [|m q] ph]|] eqn:Ek; try (left; eauto; fail).
    destruct ph as [|t|t read d|t read d i|t read d|t read slept d|r]; try (left; eauto; fail). cbn [fst n_streams] in H.
    apply nth_set in H. destruct H as [[-> [-> _]]|[_ H]]; left; [|eauto].
    eexists. split; [exact Ek|]. right. right. right. left. exists m, q, t, read, slept, d. auto.
  - destruct (nth_error (n_streams s) k0) as [[c ex q ph]|] eqn:Ek; try (left; eauto; fail).
    destruct ph; try (left; eauto; fail). cbn [fst n_streams] in H.
    apply nth_set in H. destruct H as [[-> [-> _]]|[_ H]]; left; [|eauto].
    eexists. split; [exact Ek|]. right. right. right. right. auto.
Qed.

Lemma pass_on_phase c n st : s_phase (pass_on c n st) = s_phase st /\ s_client (pass_on c n st) = s_client st /\ s_executor (pass_on c n st) = s_executor st.
Proof. unfold pass_on. destruct (_ && _); auto. Qed.

Lemma all_timed t ls k st : nth_error (n_streams (nrun ident (n_found t) ls)) k = Some st -> timed st.
Proof.
  revert k st. induction ls as [|l ls IH] using rev_ind; intros k st' H; [destruct k; discriminate|].
  rewrite nrun_snoc in H. apply stream_step_cases in H.
  destruct H as [[st [Hk [->|[[c [n [rest [_ [_ [_ ->]]]]]]|[[now [ph [call [evs [_ [E ->]]]]]]|[[m [q [t0 [read [slept [d [_ [_ [_ ->]]]]]]]]]|[_ [_ ->]]]]]]]]
    |[c [ex [cl [_ [_ [_ ->]]]]]]]; try exact I.
  - eauto.
  - unfold timed. destruct (pass_on_phase c n st) as [-> _]. apply (IH k st Hk).
  - eapply pstream_step_timed; [exact E|eauto].
Qed.

Lemma pg_delay_bounds seen read : 0 <= pg_delay seen read <= 30 * 1000000000
  /\ forall ts, seen = Some ts -> read + pg_delay seen read <= Z.max ts (read + 15 * 1000000).
Proof.
  unfold pg_delay, pg_default_delay, pg_delta, to_std, dt_diff, ns_per_s, ns_per_ms. destruct seen as [t|].
  - destruct (t - read <? 0) eqn:E; [apply Z.ltb_lt in E|apply Z.ltb_ge in E]; (split; [lia|]); intros ts H; injection H as <-; lia.
  - split; [lia|]. discriminate.
Qed.

(** * Wake-ups *)

Lemma next_available_rows ex tb t : pg_next_available ex tb = Ok t ->
  (forall r, In r (t_rows tb) -> row_waits r -> r_executor r = ex -> exists ts, t = Some ts /\ ts <= r_scheduled_at r)
  /\ (forall ts, t = Some ts -> exists r, In r (t_rows tb) /\ row_waits r /\ r_executor r = ex /\ r_scheduled_at r = ts).
Proof.
  unfold pg_next_available. destruct (storable ex); cbn [negb]; [|discriminate]. intro H. injection H as <-.
  set (keep := fun r : row => _). set (l := filter keep (t_rows tb)).
  assert (Hk : forall r, In r l <-> In r (t_rows tb) /\ row_waits r /\ r_executor r = ex).
  { intro r. unfold l, keep. rewrite filter_In, andb_true_iff, orb_true_iff, !String.eqb_eq. unfold row_waits. tauto. }
  assert (Hm : forall l0 : list time, match min_time l0 with Some m => In m l0 /\ Forall (fun x => m <= x) l0 | None => l0 = [] end).
  { induction l0 as [|x l0 IH]; [reflexivity|]. cbn [min_time]. destruct (min_time l0) as [u|]; [|subst l0].
    - destruct IH as [Hi Hf]. destruct (Z.min_spec x u) as [[Hlt ->]|[Hge ->]]; (split; [cbn; auto|]).
      + constructor; [lia|]. eapply Forall_impl; [|exact Hf]. cbn. intros; lia.
      + constructor; [lia|]. exact Hf.
    - split; [left; reflexivity|]. repeat constructor. lia. }
  specialize (Hm (map r_scheduled_at l)). destruct (min_time (map r_scheduled_at l)) as [m|].
  - destruct Hm as [Hi Hf]. split.
    + intros r H1 H2 H3. exists m. split; [reflexivity|]. rewrite Forall_forall in Hf. apply Hf, in_map, Hk. auto.
    + intros ts H. injection H as <-. apply in_map_iff in Hi. destruct Hi as [r [E Hi]]. apply Hk in Hi. exists r. tauto.
  - apply map_eq_nil in Hm. split.
    + intros r H1 H2 H3. assert (Hin : In r l) by (apply Hk; auto). rewrite Hm in Hin. destruct Hin.
    + discriminate.
Qed.

(** Every waiting row of the executor was seen, or a message about it is on its way. *)
Definition told (rows : list row) (cl : client) (st : pstream) : Prop :=
  forall seen, has_seen st seen -> forall r, In r rows -> row_waits r -> r_executor r = s_executor st ->
    (exists ts, seen = Some ts /\ ts <= r_scheduled_at r)
    \/ s_queue st <> [] \/ exists n, In n (cl_inbox cl) /\ n_executor n = s_executor st.

Lemma row_after_step s l r : qinv s -> In r (t_rows (q_tbl (fst (qstep ident s l)))) ->
  In r (t_rows (q_tbl s)) \/ (row_waits r -> In (mk_note (r_executor r) (r_scheduled_at r)) (flat_map event_notes (snd (qstep ident s l)))).
Proof.
  intros Hinv Hr. pose proof (step_inv ident s l Hinv) as Hinv'.
  pose proof (find_row_in _ r (iv_nodup _ Hinv') Hr) as Hf.
  assert (Hnote : row_waits r -> row_note r = [mk_note (r_executor r) (r_scheduled_at r)]).
  { unfold row_note. intros [->| ->]; reflexivity. }
  pose proof (step_fate ident (r_id r) s l Hinv) as F. inversion F as [evs H1 H2 H3 H4 E|i r0 now key e H1 H2 H3 E|i c b a res H1 H2 H3 H4 H5 H6 H7 E|i l0 H1 H2 E].
  - rewrite Hf in H1. symmetry in H1. apply find_row_some in H1. left. apply H1.
  - rewrite Hf in H2. injection H2 as <-. right. intro Hw. cbn [flat_map event_notes]. rewrite (Hnote Hw). left. reflexivity.
  - rewrite Hf in H3. injection H3 as <-. right. intro Hw. cbn [flat_map event_notes]. rewrite (Hnote Hw). left. reflexivity.
  - congruence.
Qed.

Lemma clients_bound t ls k st : nth_error (n_streams (nrun ident (n_found t) ls)) k = Some st ->
  (s_client st < length (n_clients (nrun ident (n_found t) ls)))%nat.
Proof.
  revert k st. induction ls as [|l ls IH] using rev_ind; intros k st' H; [destruct k; discriminate|].
  rewrite nrun_snoc in *. set (s := nrun ident (n_found t) ls) in *.
  assert (Hlen : (length (n_clients s) <= length (n_clients (fst (nstep ident s l))))%nat).
  { assert (Hset : forall c x, length (set_nth c x (n_clients s)) = length (n_clients s)).
    { intros c x. generalize (n_clients s). clear. intro l. revert c. induction l as [|y l IH]; intros [|c]; cbn; auto. }
    destruct l as [q| |c|c|c|c ex|k0 now|k0|k0]; cbn [nstep].
    - unfold db_step. destruct (qstep ident (n_db s) q). cbn. rewrite map_length. lia.
    - cbn. rewrite app_length. cbn. lia.
    - destruct (nth_error (n_clients s) c) as [[[] [|n rest]]|]; try destruct (note_readable n); cbn; rewrite ?Hset; lia.
    - destruct (nth_error (n_clients s) c); cbn; rewrite ?Hset; lia.
    - destruct (nth_error (n_clients s) c); cbn; rewrite ?Hset; lia.
    - destruct (nth_error (n_clients s) c); cbn; lia.
    - destruct (nth_error (n_streams s) k0) as [st|]; [|cbn; lia]. destruct (pstream_step now (n_db s) k0 st) as [[ph call] evs]. cbn. lia.
    - destruct (nth_error (n_streams s) k0) as [[c ex [|m q] []]|]; cbn; lia.
    - destruct (nth_error (n_streams s) k0) as [[c ex q []]|]; cbn; lia. }
  apply stream_step_cases in H.
  destruct H as [[st [Hk [->|[[c [n [rest [_ [_ [_ ->]]]]]]|[[now [ph [call [evs [_ [E ->]]]]]]|[[m [q [t0 [read [slept [d [_ [_ [_ ->]]]]]]]]]|[_ [_ ->]]]]]]]]
    |[c [ex [cl [_ [Hc [_ ->]]]]]]].
  - specialize (IH k st Hk). lia.
  - destruct (pass_on_phase c n st) as [_ [-> _]]. specialize (IH k st Hk). lia.
  - cbn. specialize (IH k st Hk). lia.
  - cbn. specialize (IH k st Hk). lia.
  - cbn. specialize (IH k st Hk). lia.
  - cbn [s_client]. assert (c < length (n_clients s))%nat by (apply nth_error_Some; congruence). lia.
Qed.

(** What one step does to a process whose listener goes on and whose connection does not break. *)
Lemma client_step s l c cl' : nth_error (n_clients (fst (nstep ident s l))) c = Some cl' -> cl_listening cl' = true -> l <> NLost c ->
  (c < length (n_clients s))%nat ->
  exists cl, nth_error (n_clients s) c = Some cl /\ cl_listening cl = true /\
    ((cl' = cl /\ forall q, l <> NDb q)
     \/ (exists q, l = NDb q /\ cl' = announce (flat_map event_notes (snd (qstep ident (n_db s) q))) cl)
     \/ (exists n rest, l = NDeliver c /\ cl_inbox cl = n :: rest /\ note_readable n = true /\ cl' = mk_client true rest)).
Proof.
  intros H Hl Hn Hc. set (R := fun cl : client => _). assert (Hsame : (forall q, l <> NDb q) -> nth_error (n_clients s) c = Some cl' -> exists cl, R cl).
  { intros Hq Hk. exists cl'. unfold R. auto. }
  destruct l as [q| |c0|c0|c0|c0 ex|k0 now|k0|k0]; cbn [nstep] in H; try (specialize (Hsame ltac:(discriminate))).
  - unfold db_step in H. destruct (qstep ident (n_db s) q) as [db evs] eqn:E. cbn in H. apply nth_map in H. destruct H as [cl [Hk ->]].
    exists cl. split; [exact Hk|]. split; [exact Hl|]. right. left. exists q. rewrite E. auto.
  - cbn in H. rewrite nth_error_app1 in H by exact Hc. auto.
  - destruct (nth_error (n_clients s) c0) as [[[] [|n rest]]|] eqn:Ec; try (auto; fail).
    destruct (note_readable n) eqn:En; cbn in H; apply nth_set in H; destruct H as [[-> [-> _]]|[_ H]]; auto; [|discriminate Hl].
    eexists. split; [exact Ec|]. split; [reflexivity|]. right. right. exists n, rest. auto.
  - destruct (nth_error (n_clients s) c0) as [cl|] eqn:Ec; [|auto]. cbn in H. apply nth_set in H. destruct H as [[-> _]|[_ H]]; [congruence|auto].
  - destruct (nth_error (n_clients s) c0) as [cl|] eqn:Ec; [|auto]. cbn in H. apply nth_set in H. destruct H as [[-> [-> _]]|[_ H]]; [discriminate Hl|auto].
  - destruct (nth_error (n_clients s) c0); auto.
  - destruct (nth_error (n_streams s) k0) as [st|]; [|auto]. destruct (pstream_step now (n_db s) k0 st) as [[ph call] evs]. auto.
  - destruct (nth_error (n_streams s) k0) as [[c1 ex [|m q] []]|]; auto.
  - destruct (nth_error (n_streams s) k0) as [[c1 ex q []]|]; auto.
Qed.

Lemma rows_step s l : (forall q, l <> NDb q) -> t_rows (q_tbl (n_db (fst (nstep ident s l)))) = t_rows (q_tbl (n_db s)).
Proof.
  intro Hl. destruct (db_step_label s l) as [qs [-> [_ H]]].
  destruct l; try (destruct H as [->|[o ->]]; reflexivity). exfalso. eapply Hl. reflexivity.
Qed.

Lemma pstream_step_seen now db k st ph call evs seen : pstream_step now db k st = (ph, call, evs) -> has_seen (set_phase ph st) seen ->
  has_seen st seen \/ (s_phase st = PCheck /\ pg_next_available (s_executor st) (q_tbl db) = Ok seen).
Proof.
  unfold pstream_step, has_seen. intro H. cbn [set_phase s_phase].
  destruct (s_phase st) as [|t|t read d|t read d i|t read d|t read slept d|r] eqn:E; try (injection H as <- <- <-); auto.
  - destruct (pg_next_available (s_executor st) (q_tbl db)); intro Hs; [|destruct Hs|destruct Hs]. right. subst. auto.
  - destruct (pg_delay t now <=? pg_delta); auto.
  - destruct (nth_error (q_calls db) i) as [[o []]|]; try (injection H as <- <- <-; auto; fail).
    destruct (load_item r) as [[]|]; injection H as <- <- <-; auto; intros [].
  - destruct (slept + d <=? now); [intros []|auto].
Qed.

Lemma all_told t ls : sound_table t -> forall k st cl,
  let s := nrun ident (n_found t) ls in
  nth_error (n_streams s) k = Some st -> nth_error (n_clients s) (s_client st) = Some cl -> cl_listening cl = true ->
  ~ In (NLost (s_client st)) ls -> told (t_rows (q_tbl (n_db s))) cl st.
Proof.
  intro Ht. induction ls as [|l ls IH] using rev_ind; intros k st' cl' s0 Hk Hc Hl Hno; [destruct k; discriminate|].
  unfold s0 in *. clear s0. pose proof (found_inv t ls Ht) as Hinv.
  assert (Hbound : forall k st, nth_error (n_streams (nrun ident (n_found t) ls)) k = Some st -> (s_client st < length (n_clients (nrun ident (n_found t) ls)))%nat)
    by (intros; eapply clients_bound; eauto).
  rewrite nrun_snoc in *. set (s := nrun ident (n_found t) ls) in *. rewrite in_app_iff in Hno.
  assert (Hl0 : l <> NLost (s_client st')) by (intros ->; apply Hno; right; left; reflexivity).
  pose proof Hk as Hk0. apply stream_step_cases in Hk.
  destruct Hk as [[st [Hk Hcase]]|[c [ex [cl [-> [_ [_ ->]]]]]]]; [|intros seen []].
  assert (Hcl : s_client st' = s_client st /\ s_executor st' = s_executor st).
  { destruct Hcase as [->|[[c [n [rest [_ [_ [_ ->]]]]]]|[[now [ph [call [evs [_ [_ ->]]]]]]|[[m [q [t0 [read [slept [d [_ [_ [_ ->]]]]]]]]]|[_ [_ ->]]]]]]; auto.
    destruct (pass_on_phase c n st) as [_ H]. exact H. }
  destruct Hcl as [Hcl Hex]. rewrite Hcl in *.
  destruct (client_step s l (s_client st) cl' Hc Hl Hl0 (Hbound k st Hk)) as [cl [Hc1 [Hl1 Hcc]]].
  assert (Hold : told (t_rows (q_tbl (n_db s))) cl st) by (apply (IH k st cl Hk Hc1 Hl1); tauto).
  destruct Hcc as [[-> Hnd]|[[q [-> ->]]|[n [rest [-> [Ein [Hr ->]]]]]]].
  - rewrite (rows_step s l Hnd).
    destruct Hcase as [->|[[c [n [rest [_ [_ [_ ->]]]]]]|[[now [ph [call [evs [_ [E ->]]]]]]|[[m [q [t0 [read [slept [d [_ [_ [_ ->]]]]]]]]]|[_ [_ ->]]]]]];
      try (intros seen []; fail).
    + exact Hold.
    + intros seen Hs r Hin Hw He. rewrite Hex in He |- *.
      assert (Hs' : has_seen st seen) by (unfold has_seen in *; destruct (pass_on_phase c n st) as [E _]; rewrite E in Hs; exact Hs).
      destruct (Hold seen Hs' r Hin Hw He) as [H|[H|H]]; [left; exact H|right; left|right; right; exact H].
      unfold pass_on. destruct (_ && _); [|exact H]. cbn. destruct (s_queue st); discriminate.
    + intros seen Hs r Hin Hw He. destruct (pstream_step_seen _ _ _ _ _ _ _ _ E Hs) as [Hs'|[_ Hn]].
      * exact (Hold seen Hs' r Hin Hw He).
      * left. destruct (next_available_rows _ _ _ Hn) as [H _]. exact (H r Hin Hw He).
  - assert (E1 : st' = st).
    { destruct Hcase as [H|[[? [? [? [H _]]]]|[[? [? [? [? [H _]]]]]|[[? [? [? [? [? [? [H _]]]]]]]|[H _]]]]]; [exact H|discriminate..]. }
    subst st'. intros seen Hs r Hr Hw He. cbn [nstep] in Hr. unfold db_step in Hr.
    destruct (qstep ident (n_db s) q) as [db evs] eqn:Eq. cbn [fst n_db] in Hr.
    assert (Hr' : In r (t_rows (q_tbl (fst (qstep ident (n_db s) q))))) by (rewrite Eq; exact Hr).
    destruct (row_after_step (n_db s) q r Hinv Hr') as [Hin|Hin].
    + destruct (Hold seen Hs r Hin Hw He) as [H|[H|[n [H1 H2]]]]; [left; exact H|right; left; exact H|].
      right. right. exists n. split; [apply in_or_app; left; exact H1|exact H2].
    + right. right. eexists. split; [apply in_or_app; right; rewrite Eq in Hin; apply Hin, Hw|exact He].
  - rewrite (rows_step s (NDeliver (s_client st))) by discriminate.
    destruct cl as [li inb]. cbn in Hl1, Ein. subst li inb. cbn [nstep] in Hk0. rewrite Hc1, Hr in Hk0. cbn [fst n_streams] in Hk0.
    apply nth_map in Hk0. destruct Hk0 as [st0 [Hst0 ->]]. rewrite Hk in Hst0. injection Hst0 as <-.
    intros seen Hs r Hin Hw He. rewrite Hex in He |- *.
    assert (Hs' : has_seen st seen) by (unfold has_seen in *; destruct (pass_on_phase (s_client st) n st) as [E _]; rewrite E in Hs; exact Hs).
    unfold pass_on. rewrite Nat.eqb_refl. cbn [andb].
    destruct (String.eqb_spec (s_executor st) (n_executor n)) as [E|E].
    + right. left. cbn. destruct (s_queue st); discriminate.
    + destruct (Hold seen Hs' r Hin Hw He) as [H|[H|[n' [[<-|H1] H2]]]]; [left; exact H|right; left; exact H|congruence|].
      right. right. exists n'. split; [exact H1|exact H2].
Qed.

(** * What streams give to their workers *)

Lemma load_taken t qs : forall i ex j, nth_error (q_calls (qrun ident (opened t) qs)) i = Some (mk_qcall (OpLoad ex) (QDone (RJob (Ok (Some j))))) ->
  exists b a, In (QvWrite i (OpLoad ex) b a) (qtrace ident (opened t) qs) /\ r_id b = j_id j /\ job_of_row a = Ok j.
Proof.
  induction qs as [|l qs IH] using rev_ind; intros i ex j H; [destruct i; discriminate|].
  rewrite qtrace_snoc. rewrite qrun_snoc in H. apply call_step_cases in H.
  destruct H as [H|[[o [-> H]]|[[now [pick [c [t' [ev [-> [Hc [Ha [Ho ->]]]]]]]]]|[e [c [-> [_ H]]]]]]].
  - destruct (IH i ex j H) as [b [a [H1 H2]]]. exists b, a. split; [apply in_or_app; left; exact H1|exact H2].
  - discriminate.
  - destruct c as [o pc]. cbn in Ho. subst o. unfold action in Ha. cbn [qc_op qc_pc] in Ha. unfold load_action in Ha.
    destruct pc as [|n ids|n id|n|n|n|n id|n id|n id|n tk rest|r].
    + destruct (negb (storable ex)); discriminate.
    + destruct ids as [|id rest]; [discriminate|]. destruct (row_locked _ id); [discriminate|].
      destruct (find_row id _) as [r|]; [destruct (pg_ready n ex r)|]; discriminate.
    + destruct (find_row id _) as [b|] eqn:Ef; [|discriminate].
      destruct (update_rows id _ _) as [[l n0]|]; [|discriminate]. destruct (pg_take n b) as [a|] eqn:Et; [|discriminate].
      injection Ha as <- Hj <-. destruct (job_of_row a) as [j'|e|] eqn:Ej; try discriminate. injection Hj as ->.
      exists b, a. split; [apply in_or_app; right; left; reflexivity|]. split; [|exact Ej].
      assert (E1 : j_id j = r_id a).
      { unfold job_of_row in Ej. destruct (status_of_label (r_status a)); [|discriminate]. destruct (collect _); [|discriminate]. injection Ej as <-. reflexivity. }
      rewrite E1. unfold pg_take in Et. destruct (int4 (r_attempt b + 1)); [|discriminate]. injection Et as <-. reflexivity.
    + discriminate.
    + discriminate.
    + discriminate.
    + discriminate.
    + discriminate.
    + discriminate.
    + discriminate.
    + injection Ha as <- -> <-. destruct (IH i ex j Hc) as [b [a [H1 H2]]]. exists b, a. split; [apply in_or_app; left; exact H1|exact H2].
  - injection H as Ho H. destruct c as [o pc]. cbn in Ho, H. subst o. discriminate.
Qed.

Lemma op_step s l i c : nth_error (q_calls s) i = Some c ->
  exists pc, nth_error (q_calls (fst (qstep ident s l))) i = Some (mk_qcall (qc_op c) pc).
Proof.
  intro H. destruct l as [o|k now pick|k e]; cbn [qstep].
  - cbn. rewrite nth_error_app1 by (apply nth_error_Some; congruence). rewrite H. destruct c as [o' pc]. exists pc. reflexivity.
  - destruct (nth_error (q_calls s) k) as [d|] eqn:Hd; [|destruct c as [o pc]; exists pc; exact H].
    destruct (action ident k now pick (q_calls s) (q_tbl s) d) as [[t' pc'] ev]. cbn. rewrite set_nth_nth.
    destruct (Nat.eqb_spec k i) as [->|_].
    + rewrite H. rewrite H in Hd. injection Hd as ->. eauto.
    + destruct c as [o pc]. exists pc. exact H.
  - destruct (nth_error (q_calls s) k) as [d|] eqn:Hd; [|destruct c as [o pc]; exists pc; exact H]. cbn. rewrite set_nth_nth.
    destruct (Nat.eqb_spec k i) as [->|_].
    + rewrite H. rewrite H in Hd. injection Hd as ->. eauto.
    + destruct c as [o pc]. exists pc. exact H.
Qed.
Lemma op_run qs : forall s i c, nth_error (q_calls s) i = Some c ->
  exists pc, nth_error (q_calls (qrun ident s qs)) i = Some (mk_qcall (qc_op c) pc).
Proof.
  induction qs as [|l qs IH]; intros s i c H; [destruct c as [o pc]; exists pc; exact H|].
  destruct (op_step s l i c H) as [pc H1]. exact (IH _ i _ H1).
Qed.

Definition given (tr : list nevent) : list nat := flat_map (fun ev => match ev with NvYield _ i _ => [i] | _ => [] end) tr.
Lemma given_app a b : given (a ++ b) = given a ++ given b.
Proof. apply flat_map_app. Qed.
Lemma given_db evs : given (map NvDb evs) = [].
Proof. unfold given. induction evs as [|e evs IH]; cbn; auto. Qed.

Record yinv (s : nstate) (tr : list nevent) : Prop := {
  yi_nodup : NoDup (given tr);
  yi_bound : forall i, In i (given tr) -> (i < length (q_calls (n_db s)))%nat;
  yi_load : forall k st t read d i, nth_error (n_streams s) k = Some st -> s_phase st = PLoading t read d i ->
    ~ In i (given tr) /\ exists pc, nth_error (q_calls (n_db s)) i = Some (mk_qcall (OpLoad (s_executor st)) pc);
  yi_apart : forall k st t read d i k' st' t' read' d', nth_error (n_streams s) k = Some st -> s_phase st = PLoading t read d i ->
    nth_error (n_streams s) k' = Some st' -> s_phase st' = PLoading t' read' d' i -> k = k' }.

Lemma pstream_step_loading now db k st ph call evs t read d i : pstream_step now db k st = (ph, call, evs) -> ph = PLoading t read d i ->
  (s_phase st = ph /\ call = None /\ evs = []) \/ (i = length (q_calls db) /\ call = Some (OpLoad (s_executor st)) /\ evs = []).
Proof.
  unfold pstream_step. intro H. destruct (s_phase st) as [|t0|t0 read0 d0|t0 read0 d0 i0|t0 read0 d0|t0 read0 slept d0|r] eqn:E.
  - injection H as <- <- <-. destruct (pg_next_available _ _); discriminate.
  - injection H as <- <- <-. destruct (pg_delay t0 now <=? pg_delta); discriminate.
  - injection H as <- <- <-. intro H. injection H as <- <- <- <-. auto.
  - destruct (nth_error (q_calls db) i0) as [[o []]|]; try (injection H as <- <- <-; auto; fail).
    destruct (load_item r) as [[]|]; injection H as <- <- <-; discriminate.
  - injection H as <- <- <-. discriminate.
  - injection H as <- <- <-. destruct (slept + d0 <=? now); discriminate.
  - injection H as <- <- <-. discriminate.
Qed.

Lemma pass_on_loading c n st : s_phase (pass_on c n st) = s_phase st.
Proof. apply pass_on_phase. Qed.

(** A stream that is loading after a step was loading before it, or has just made its call. *)
Lemma loading_step s l k st' t read d i : nth_error (n_streams (fst (nstep ident s l))) k = Some st' -> s_phase st' = PLoading t read d i ->
  (exists st, nth_error (n_streams s) k = Some st /\ s_phase st = PLoading t read d i /\ s_executor st' = s_executor st
     /\ forall now, l = NStream k now -> snd (nstep ident s l) = [] /\ n_db (fst (nstep ident s l)) = n_db s)
  \/ (exists now, l = NStream k now /\ i = length (q_calls (n_db s)) /\ snd (nstep ident s l) = []
     /\ nth_error (q_calls (n_db (fst (nstep ident s l)))) i = Some (mk_qcall (OpLoad (s_executor st')) QStart)).
Proof.
  intros H Hph. pose proof H as H0. apply stream_step_cases in H.
  destruct H as [[st [Hk Hcase]]|[c [ex [cl [_ [_ [_ ->]]]]]]]; [|discriminate].
  destruct Hcase as [->|[[c [n [rest [-> [_ [_ ->]]]]]]|[[now [ph [call [evs [-> [E ->]]]]]]|[[m [q [t0 [read0 [slept [d0 [_ [_ [_ ->]]]]]]]]]|[_ [_ ->]]]]]];
    try discriminate Hph.
  - destruct l as [q| |c|c|c|c ex|k0 now0|k0|k0]; try (left; exists st; repeat split; auto; discriminate).
    destruct (Nat.eq_dec k0 k) as [->|Hne].
    + cbn [nstep] in H0 |- *. rewrite Hk in H0 |- *. destruct (pstream_step now0 (n_db s) k st) as [[ph call] evs] eqn:E. cbn [fst n_streams] in H0.
      rewrite set_nth_nth, Nat.eqb_refl, Hk in H0. injection H0 as H0. assert (Hp : ph = PLoading t read d i) by (rewrite <- Hph, <- H0; reflexivity).
      destruct (pstream_step_loading _ _ _ _ _ _ _ _ _ _ _ E Hp) as [[_ [-> ->]]|[-> [-> ->]]].
      * left. exists st. split; [reflexivity|]. split; [exact Hph|]. split; [reflexivity|]. intros now _. cbn. auto.
      * right. exists now0. split; [reflexivity|]. split; [reflexivity|]. split; [reflexivity|]. cbn. rewrite nth_error_app2, Nat.sub_diag by lia. reflexivity.
    + left. exists st. split; [exact Hk|]. split; [exact Hph|]. split; [reflexivity|]. intros n H. injection H as H _. congruence.
  - left. exists st. rewrite pass_on_loading in Hph. split; [exact Hk|]. split; [exact Hph|]. split; [apply pass_on_phase|]. discriminate.
  - cbn [s_phase set_phase] in Hph. destruct (pstream_step_loading _ _ _ _ _ _ _ _ _ _ _ E Hph) as [[E1 [-> ->]]|[-> [-> ->]]].
    + left. exists st. split; [exact Hk|]. split; [congruence|]. split; [reflexivity|]. intros now' _. cbn [nstep]. rewrite Hk, E. cbn. auto.
    + right. exists now. split; [reflexivity|]. split; [reflexivity|]. cbn [nstep]. rewrite Hk, E. cbn. split; [reflexivity|].
      rewrite nth_error_app2, Nat.sub_diag by lia. reflexivity.
Qed.

Lemma given_step s l : given (snd (nstep ident s l)) = [] \/ (exists k now st t read d i o j,
  l = NStream k now /\ nth_error (n_streams s) k = Some st /\ s_phase st = PLoading t read d i /\ snd (nstep ident s l) = [NvYield k i j]
  /\ nth_error (q_calls (n_db s)) i = Some (mk_qcall o (QDone (RJob (Ok (Some j))))) /\ n_db (fst (nstep ident s l)) = n_db s
  /\ forall st', nth_error (n_streams (fst (nstep ident s l))) k = Some st' -> s_phase st' = PYield (Ok j)).
Proof.
  destruct l as [q| |c|c|c|c ex|k now|k|k]; cbn [nstep].
  - left. unfold db_step. destruct (qstep ident (n_db s) q) as [db evs]. cbn. apply given_db.
  - left. reflexivity.
  - left. destruct (nth_error (n_clients s) c) as [[[] [|n rest]]|]; try destruct (note_readable n); reflexivity.
  - left. destruct (nth_error (n_clients s) c); reflexivity.
  - left. destruct (nth_error (n_clients s) c); reflexivity.
  - left. destruct (nth_error (n_clients s) c); reflexivity.
  - destruct (nth_error (n_streams s) k) as [st|] eqn:Hk; [|left; reflexivity].
    destruct (pstream_step now (n_db s) k st) as [[ph call] evs] eqn:E. cbn [fst snd].
    destruct (pstream_step_events _ _ _ _ _ _ _ E) as [_ [->|[i [j [t [read [d [o [-> [Hph [-> Hc]]]]]]]]]]]; [left; reflexivity|].
    right. exists k, now, st, t, read, d, i, o, j. split; [reflexivity|]. split; [exact Hk|]. split; [exact Hph|]. split; [reflexivity|].
    split; [exact Hc|].
    assert (Hcall : call = None).
    { unfold pstream_step in E. rewrite Hph, Hc in E. cbn [load_item] in E. injection E as <-. reflexivity. }
    subst call. split; [reflexivity|]. cbn [n_streams]. intros st'. rewrite set_nth_nth, Nat.eqb_refl, Hk. intro H. injection H as <-. reflexivity.
  - left. destruct (nth_error (n_streams s) k) as [[c ex [|m q] []]|]; reflexivity.
  - left. destruct (nth_error (n_streams s) k) as [[c ex q []]|]; reflexivity.
Qed.

Lemma calls_step s l : forall i c, nth_error (q_calls (n_db s)) i = Some c ->
  exists pc, nth_error (q_calls (n_db (fst (nstep ident s l)))) i = Some (mk_qcall (qc_op c) pc).
Proof. intros i c H. destruct (db_step_label s l) as [qs [-> _]]. apply op_run. exact H. Qed.

Lemma yinv_step s l tr : yinv s tr -> yinv (fst (nstep ident s l)) (tr ++ snd (nstep ident s l)).
Proof.
  intros [H1 H2 H3 H4].
  assert (Hlen : (length (q_calls (n_db s)) <= length (q_calls (n_db (fst (nstep ident s l)))))%nat).
  { destruct (Nat.le_gt_cases (length (q_calls (n_db s))) (length (q_calls (n_db (fst (nstep ident s l)))))) as [H|H]; [exact H|exfalso].
    destruct (nth_error (q_calls (n_db s)) (length (q_calls (n_db (fst (nstep ident s l)))))) as [c|] eqn:E; [|apply nth_error_None in E; lia].
    destruct (calls_step s l _ _ E) as [pc Hpc]. assert (length (q_calls (n_db (fst (nstep ident s l)))) < length (q_calls (n_db (fst (nstep ident s l)))))%nat by (apply nth_error_Some; congruence). lia. }
  assert (Hbnd : forall k st t read d i, nth_error (n_streams s) k = Some st -> s_phase st = PLoading t read d i -> (i < length (q_calls (n_db s)))%nat).
  { intros k st t read d i Hk Hp. destruct (H3 _ _ _ _ _ _ Hk Hp) as [_ [pc H]]. apply nth_error_Some. congruence. }
  assert (Happ : forall k st t read d i k' st' t' read' d', nth_error (n_streams (fst (nstep ident s l))) k = Some st -> s_phase st = PLoading t read d i ->
    nth_error (n_streams (fst (nstep ident s l))) k' = Some st' -> s_phase st' = PLoading t' read' d' i -> k = k').
  { intros k st t read d i k' st' t' read' d' Hk Hp Hk' Hp'.
    destruct (loading_step _ _ _ _ _ _ _ _ Hk Hp) as [[st0 [A1 [A2 [A3 _]]]]|[n [El [A1 _]]]];
      destruct (loading_step _ _ _ _ _ _ _ _ Hk' Hp') as [[st1 [B1 [B2 [B3 _]]]]|[n' [El' [B1 _]]]].
    - exact (H4 _ _ _ _ _ _ _ _ _ _ _ A1 A2 B1 B2).
    - specialize (Hbnd _ _ _ _ _ _ A1 A2). lia.
    - specialize (Hbnd _ _ _ _ _ _ B1 B2). lia.
    - rewrite El in El'. injection El' as <- _. reflexivity. }
  destruct (given_step s l) as [Hg|[k0 [now [st0 [t0 [read0 [d0 [i0 [o0 [j0 [-> [Hk0 [Hp0 [Hev [Hc0 [Hdb Hph']]]]]]]]]]]]]]]].
  - assert (Hgi : given (tr ++ snd (nstep ident s l)) = given tr) by (rewrite given_app, Hg, app_nil_r; reflexivity).
    constructor; rewrite ?Hgi; auto.
    + intros i Hi. specialize (H2 i Hi). lia.
    + intros k st t read d i Hk Hp. destruct (loading_step _ _ _ _ _ _ _ _ Hk Hp) as [[st0 [A1 [A2 [A3 _]]]]|[n [El [A1 [A2 A3]]]]].
      * destruct (H3 _ _ _ _ _ _ A1 A2) as [B1 [pc B2]]. split; [exact B1|]. rewrite A3. exact (calls_step s l _ _ B2).
      * split; [intro Hi; specialize (H2 i Hi); lia|eauto].
  - assert (Hgi : given (tr ++ snd (nstep ident s (NStream k0 now))) = given tr ++ [i0]) by (rewrite given_app, Hev; reflexivity).
    destruct (H3 _ _ _ _ _ _ Hk0 Hp0) as [Hnew _]. pose proof (Hbnd _ _ _ _ _ _ Hk0 Hp0) as Hb0.
    constructor; rewrite ?Hgi; auto.
    + apply Permutation_NoDup with (i0 :: given tr); [apply Permutation_cons_append|]. constructor; assumption.
    + intros i Hi. apply in_app_iff in Hi. destruct Hi as [Hi|[<-|[]]]; [specialize (H2 i Hi)|]; lia.
    + intros k st t read d i Hk Hp. destruct (Nat.eq_dec k k0) as [->|Hne]; [rewrite (Hph' st Hk) in Hp; discriminate|].
      destruct (loading_step _ _ _ _ _ _ _ _ Hk Hp) as [[st1 [A1 [A2 [A3 _]]]]|[n [El _]]]; [|injection El as -> _; contradiction].
      destruct (H3 _ _ _ _ _ _ A1 A2) as [B1 [pc B2]]. rewrite A3. split; [|exact (calls_step s (NStream k0 now) _ _ B2)].
      intro Hi. apply in_app_iff in Hi. destruct Hi as [Hi|[<-|[]]]; [contradiction|].
      apply Hne. exact (H4 _ _ _ _ _ _ _ _ _ _ _ A1 A2 Hk0 Hp0).
Qed.

Lemma yinv_run t ls : yinv (nrun ident (n_found t) ls) (ntrace ident (n_found t) ls).
Proof.
  induction ls as [|l ls IH] using rev_ind; [|rewrite nrun_snoc, ntrace_snoc; apply yinv_step, IH].
  constructor; cbn; [constructor|intros i []| |]; intros [|k]; intros; discriminate.
Qed.

(** Every job given to a worker was handed out by the call the stream made. *)
Lemma yield_taken t ls : forall k i j, In (NvYield k i j) (ntrace ident (n_found t) ls) ->
  exists ex b a, In (QvWrite i (OpLoad ex) b a) (db_events (ntrace ident (n_found t) ls)) /\ r_id b = j_id j /\ job_of_row a = Ok j.
Proof.
  induction ls as [|l ls IH] using rev_ind; intros k i j H; [destruct H|].
  rewrite ntrace_snoc in H |- *. rewrite db_events_app. apply in_app_iff in H. destruct H as [H|H].
  - destruct (IH k i j H) as [ex [b [a [H1 H2]]]]. exists ex, b, a. split; [apply in_or_app; left; exact H1|exact H2].
  - destruct (given_step (nrun ident (n_found t) ls) l) as [Hg|[k0 [now [st0 [t0 [read0 [d0 [i0 [o0 [j0 [-> [Hk0 [Hp0 [Hev [Hc0 _]]]]]]]]]]]]]]].
    + exfalso. assert (Hi : In i (given (snd (nstep ident (nrun ident (n_found t) ls) l)))) by (apply in_flat_map; exists (NvYield k i j); split; [exact H|left; reflexivity]).
      rewrite Hg in Hi. destruct Hi.
    + rewrite Hev in H. destruct H as [H|[]]. injection H as <- <- <-.
      destruct (yi_load _ _ (yinv_run t ls) _ _ _ _ _ _ Hk0 Hp0) as [_ [pc Hc]]. rewrite Hc0 in Hc. injection Hc as -> _.
      destruct (projection (n_found t) ls) as [qs [E1 E2]]. rewrite E1 in Hc0. change (n_db (n_found t)) with (opened t) in *.
      destruct (load_taken t qs _ _ _ Hc0) as [b [a [H1 H2]]]. exists (s_executor st0), b, a. rewrite E2. split; [apply in_or_app; left; exact H1|exact H2].
Qed.

Definition take_b (id : Z) (ev : qevent) : bool := match ev with QvWrite _ (OpLoad _) b _ => r_id b =? id | _ => false end.
Definition free_b (id : Z) (ev : qevent) : bool :=
  match ev with QvWrite _ (OpRetryable i _ _ | OpSnoozed i _ | OpRerun i) b _ => (i =? id) && (r_id b =? id) | _ => false end.

Lemma alternate id : forall n tr, (length tr <= n)%nat ->
  (forall A e1 B e2 C, tr = A ++ e1 :: B ++ e2 :: C -> take_b id e1 = true -> take_b id e2 = true -> exists ev, In ev B /\ free_b id ev = true) ->
  (length (filter (take_b id) tr) <= 1 + length (filter (free_b id) tr))%nat.
Proof.
  induction n as [|n IH]; intros tr Hlen H; [destruct tr; cbn in *; lia|].
  destruct tr as [|x tr]; [cbn; lia|]. cbn [filter].
  assert (Htail : (length (filter (take_b id) tr) <= 1 + length (filter (free_b id) tr))%nat).
  { apply IH; [cbn in Hlen; lia|]. intros A e1 B e2 C E. apply (H (x :: A) e1 B e2 C). rewrite E. reflexivity. }
  destruct (take_b id x) eqn:Ex; [|destruct (free_b id x); cbn [length]; lia].
  assert (Hf : free_b id x = false) by (destruct x as [| ? [] ? ? |]; cbn in *; congruence). rewrite Hf. cbn [length].
  assert (Hfirst : filter (take_b id) tr = [] \/ exists B e2 C, tr = B ++ e2 :: C /\ take_b id e2 = true /\ filter (take_b id) B = []).
  { clear. induction tr as [|y tr IHt]; [left; reflexivity|]. cbn. destruct (take_b id y) eqn:E.
    - right. exists [], y, tr. auto.
    - destruct IHt as [->|[B [e2 [C [-> [H1 H2]]]]]]; [left; reflexivity|]. right. exists (y :: B), e2, C. cbn. rewrite E. auto. }
  destruct Hfirst as [->|[B [e2 [C [-> [H1 H2]]]]]]; [cbn; lia|].
  destruct (H [] x B e2 C eq_refl Ex H1) as [ev [Hev Hfr]]. rewrite !filter_app, H2, !app_length. cbn [app length].
  assert (Hb : (1 <= length (filter (free_b id) B))%nat).
  { assert (Hi : In ev (filter (free_b id) B)) by (apply filter_In; auto). destruct (filter (free_b id) B); [destruct Hi|cbn; lia]. }
  assert (Hrec : (length (filter (take_b id) (e2 :: C)) <= 1 + length (filter (free_b id) (e2 :: C)))%nat).
  { apply IH; [cbn in Hlen; rewrite app_length in Hlen; cbn in *; lia|]. intros A e1 B' e2' C' E. apply (H (x :: B ++ A) e1 B' e2' C'). rewrite E. cbn. rewrite <- app_assoc. reflexivity. }
  lia.
Qed.

Lemma freed_count id tr : times_freed id tr = length (filter (free_b id) (db_events tr)).
Proof.
  unfold times_freed, db_events. induction tr as [|ev tr IH]; [reflexivity|]. cbn [filter flat_map].
  destruct ev as [e|k i j]; [|exact IH]. cbn [app filter].
  match goal with |- context [if ?b then _ else _] => change b with (free_b id e) end. destruct (free_b id e); cbn [length]; rewrite IH; reflexivity.
Qed.

Lemma given_once t ls id : sound_table t ->
  (times_given id (ntrace ident (n_found t) ls) <= 1 + times_freed id (ntrace ident (n_found t) ls))%nat.
Proof.
  intro Ht. set (tr := ntrace ident (n_found t) ls).
  assert (H1 : (length (filter (take_b id) (db_events tr)) <= 1 + times_freed id tr)%nat).
  { rewrite freed_count. apply (alternate id _ _ (le_n _)). intros A e1 B e2 C E He1 He2.
    destruct (projection (n_found t) ls) as [qs [_ E2]]. fold tr in E2. rewrite E in E2. change (n_db (n_found t)) with (opened t) in E2.
    assert (Htk : forall e, take_b id e = true -> takes id e).
    { intros e H. destruct e as [| ? [] ? ? |]; cbn in *; try discriminate. apply Z.eqb_eq, H. }
    destruct (exclusive ident t qs id A e1 B e2 C Ht (eq_sym E2) (Htk _ He1) (Htk _ He2)) as [ev [Hi Hf]].
    exists ev. split; [exact Hi|]. destruct ev as [| ? [] ? ? |]; cbn in *; try contradiction; destruct Hf as [-> ->]; rewrite Z.eqb_refl; reflexivity. }
  assert (H2 : (times_given id tr <= length (filter (take_b id) (db_events tr)))%nat); [|lia].
  pose proof (yi_nodup _ _ (yinv_run t ls)) as Hn. fold tr in Hn.
  pose proof (yield_taken t ls) as Hy. fold tr in Hy.
  unfold times_given. set (g := fun ev : nevent => _).
  assert (E1 : length (filter g tr) = length (given (filter g tr))).
  { unfold given. clear. induction tr as [|ev tr IH]; [reflexivity|]. cbn [filter]. destruct (g ev) eqn:E; [|exact IH].
    destruct ev as [e|k i j]; [discriminate|]. cbn. rewrite IH. reflexivity. }
  rewrite E1. set (ix := fun ev : qevent => match ev with QvWrite i _ _ _ => i | _ => O end).
  rewrite <- (map_length ix). apply NoDup_incl_length.
  - clear -Hn. induction tr as [|ev tr IH]; [constructor|]. cbn [filter]. cbn [given flat_map] in Hn.
    destruct ev as [e|k i j]; [cbn; apply IH, Hn|]. cbn in Hn. inversion Hn as [|? ? Hni Hnd]. subst.
    destruct (g (NvYield k i j)); [|apply IH, Hnd]. cbn. constructor; [|apply IH, Hnd].
    intro Hi. apply Hni. unfold given in Hi. apply in_flat_map in Hi. destruct Hi as [x [Hx Hi]]. apply filter_In in Hx.
    apply in_flat_map. exists x. split; [apply Hx|exact Hi].
  - intros i Hi. apply in_flat_map in Hi. destruct Hi as [ev [Hev Hi]]. apply filter_In in Hev. destruct Hev as [Hev Hg].
    destruct ev as [e|k i' j]; [destruct Hi|]. destruct Hi as [<-|[]]. cbn in Hg.
    destruct (Hy k i' j Hev) as [ex [b [a [Hin [Hb _]]]]]. apply in_map_iff. exists (QvWrite i' (OpLoad ex) b a). split; [reflexivity|].
    apply filter_In. split; [exact Hin|]. cbn. rewrite Hb. exact Hg.
Qed.

End Listen.
