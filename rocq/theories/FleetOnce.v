(** No job is held by two workers of a fleet, except through releases by the programs themselves. *)
From Coq Require Import Lia Permutation.
From Verif Require Import Base Chrono Types Query Memory MemSpec MemConc MemWake PgRow PgQuery Pg PgSpec PgProofs PgConc PgConcSpec PgConcProofs PgConcHist PgConcPast PgConcEnd
  PgListen PgListenSpec PgListenProofs Codec Builder
  Runner RunnerSpec WorkerProofs Ticker Pruner ApiProofs App AppSpec AppProofs World WorldSpec WorldProofs WorldInv WorldThms WorldOnce
  Fleet FleetSpec FleetLink FleetInv FleetThms.

Section Db.
Variable ident : option Z -> option string -> list status -> Z.

Definition done_call (c : qcall) : bool := match qc_pc c with QDone _ => true | _ => false end.

Definition freeing (id : Z) (c : qcall) : bool := again id (qc_op c) && done_call c.

Lemma freed_calls t ls id : sound_table t ->
  (cnt (free_b id) (qtrace ident (opened t) ls) <= cnt (freeing id) (q_calls (qrun ident (opened t) ls)))%nat.
Proof.
  intro Ht. induction ls as [|l ls IH] using rev_ind; [cbn; lia|]. rewrite qtrace_snoc, qrun_snoc, cnt_app.
  pose proof (PgConcProofs.run_inv ident ls _ (inv_opened _ Ht)) as Hinv. set (s := qrun ident (opened t) ls) in *.
  destruct (snd (qstep ident s l)) as [|ev evs] eqn:E.
  - cbn [cnt filter length]. etransitivity; [apply (Nat.eq_le_incl _ _ (Nat.add_0_r _))|]. etransitivity; [exact IH|]. clear IH E.
    destruct l as [o|i now pick|i e]; cbn [qstep].
    + cbn [fst q_calls]. rewrite cnt_app. lia.
    + destruct (nth_error (q_calls s) i) as [c|] eqn:Ec; [|reflexivity].
      destruct (PgConc.action ident i now pick (q_calls s) (q_tbl s) c) as [[t' pc'] ev] eqn:Ea. cbn [fst q_calls].
      pose proof (cnt_set_nth (freeing id) _ _ _ (mk_qcall (qc_op c) pc') Ec) as K.
      destruct c as [o pc]. cbn [qc_op qc_pc] in *. unfold freeing at 2 4 in K. unfold done_call in K. cbn [qc_pc qc_op] in K.
      destruct pc; try (rewrite Bool.andb_false_r in K; destruct (again id o && _); lia).
      rewrite action_done in Ea. injection Ea as _ <- _. rewrite Bool.andb_true_r in K. destruct (again id o); lia.
    + destruct (nth_error (q_calls s) i) as [c|] eqn:Ec; [|reflexivity]. cbn [fst q_calls].
      pose proof (cnt_set_nth (freeing id) _ _ _ (mk_qcall (qc_op c) (gives_up e c)) Ec) as K.
      destruct c as [o pc]. unfold gives_up in *. cbn [qc_op qc_pc] in *. unfold freeing at 2 4 in K. unfold done_call in K. cbn [qc_pc qc_op] in K.
      rewrite Bool.andb_true_r in K. destruct (again id o); cbn [andb] in K; [|lia]. destruct pc; lia.
  - assert (Hin : In ev (snd (qstep ident s l))) by (rewrite E; left; reflexivity).
    destruct (step_event ident _ _ _ Hinv Hin) as [k [now [pick [c [t' [pc' [-> [Hc [He [E1 E2]]]]]]]]]]. rewrite E1 in E. injection E as <-.
    destruct (effect_doer _ _ _ _ _ _ _ _ He) as [_ [Hnd [r [-> _]]]]. rewrite E2. cbn [q_calls].
    pose proof (cnt_set_nth (freeing id) _ _ _ (mk_qcall (qc_op c) (QDone r)) Hc) as K.
    unfold freeing at 2 4 in K. unfold done_call in K. cbn [qc_op qc_pc] in K. rewrite Bool.andb_true_r in K.
    assert (Z0 : match qc_pc c with QDone _ => true | _ => false end = false) by (destruct (qc_pc c) eqn:Ep; try reflexivity; destruct (Hnd _ eq_refl)).
    rewrite Z0, Bool.andb_false_r in K.
    assert (Hf : free_b id ev = true -> again id (qc_op c) = true).
    { inversion He; subst; cbn [free_b]; try discriminate. destruct (qc_op c); try discriminate; intro Hx; apply Bool.andb_true_iff in Hx; exact (proj1 Hx). }
    rewrite cnt_cons. change (cnt (free_b id) []) with 0%nat. destruct (free_b id ev); [rewrite Hf in K by reflexivity; lia|]. destruct (again id (qc_op c)); lia.
Qed.
End Db.

Section Once.
  Context {Schedule Zone : Type}.
  Variable utc : Zone.
  Variable upcoming : Schedule -> Zone -> time -> option time.
  Variable show : Z -> string.
  Variable hash : forall e : executor, xe_data e -> Z.
  Variable ident : option Z -> option string -> list status -> Z.
  Variable t0 : tbl.
  Notation fleet := (fleet Schedule Zone).
  Notation frun := (fleet_run utc upcoming show hash ident).
  Notation tr w := (ntrace ident (n_found t0) (net_labels (fl_log w))).

  Definition told (t : task Schedule Zone) : list (nat * mop) := match ta_body t with BWorker _ wk => reports wk | _ => [] end.

  Lemma crew_winv es w t e wk : frun (fleet_init t0) es = Some w -> In t (crew w) -> ta_body t = BWorker e wk -> winv (xe_codec e) (xe_fns e) show wk.
  Proof.
    intros H Ht Eb. destruct (reach_good utc upcoming show hash ident t0 es w H) as [K _]. apply in_flat_map in Ht. destruct Ht as [s [Hs Ht]].
    apply In_nth_error in Hs. destruct Hs as [q Hq]. destruct (k_node _ _ _ _ _ _ K q s Hq) as [rs Hr].
    pose proof (i_ok _ _ _ _ _ (AppProofs.run_inv utc upcoming show _ _ _ Hr) t Ht) as Hok. unfold task_ok in Hok. rewrite Eb in Hok.
    destruct Hok as [wes [Hw _]]. eapply run_winv. exact Hw.
  Qed.

  Lemma again_aims id o : again id o = true -> aims id o = true.
  Proof. unfold aims. destruct o; cbn; try discriminate; intros ->; reflexivity. Qed.

  Theorem holders_thm es w id : sound_table t0 -> frun (fleet_init t0) es = Some w ->
    (length (filter (fun j => Z.eqb (j_id j) id) (flat_map holdings (crew w))) <= 1 + length (filter (again id) (called es)))%nat.
  Proof.
    intros Ht H. destruct (reach_good utc upcoming show hash ident t0 es w H) as [K _].
    pose proof (given_once ident t0 (net_labels (fl_log w)) id Ht) as Hb. rewrite freed_count in Hb.
    destruct (projection ident (n_found t0) (net_labels (fl_log w))) as [qs [Q1 Q2]]. rewrite Q2 in Hb. change (n_db (n_found t0)) with (opened t0) in Q1, Q2, Hb.
    pose proof (freed_calls ident t0 qs id Ht) as Hf. rewrite <- Q1, <- (k_net _ _ _ _ _ _ K) in Hf.
    fold (cnt (free_b id) (qtrace ident (opened t0) qs)) in Hb.
    assert (F : (cnt (freeing id) (q_calls (n_db (fl_net w))) <= cnt (fun c => again id (qc_op c)) (q_calls (n_db (fl_net w))))%nat).
    { apply cnt_le. intros c Hc. apply Bool.andb_true_iff in Hc. tauto. }
    assert (C : cnt (fun c => again id (qc_op c)) (q_calls (n_db (fl_net w))) = cnt (again id) (filter callable (map qc_op (q_calls (n_db (fl_net w)))))).
    { generalize (q_calls (n_db (fl_net w))). intro l. clear. induction l as [|c l IH]; [reflexivity|]. cbn [map filter]. rewrite cnt_cons, IH.
      destruct (qc_op c); cbn [callable again]; rewrite ?cnt_cons; reflexivity. }
    rewrite (cnt_perm _ _ _ (FleetThms.calls_thm utc upcoming show hash ident t0 es w H)), cnt_app, cnt_flat in C.
    assert (G : times_given id (tr w) = cnt (fun j => Z.eqb (j_id j) id) (yielded (tr w))).
    { unfold times_given. generalize (tr w). intro l. clear. induction l as [|ev l IH]; [reflexivity|]. cbn [filter yielded flat_map].
      rewrite cnt_app. change (flat_map _ l) with (yielded l). rewrite <- IH. destruct ev as [|k i j]; [reflexivity|]. rewrite cnt_cons. destruct (j_id j =? id); reflexivity. }
    rewrite G, (cnt_perm _ _ _ (FleetThms.given_thm utc upcoming show hash ident t0 es w H)), cnt_flat in Hb.
    fold (cnt (fun j => Z.eqb (j_id j) id) (flat_map (holdings (Schedule := Schedule) (Zone := Zone)) (crew w))). fold (cnt (again id) (called es)). rewrite cnt_flat.
    assert (S1 : list_sum (map (fun t => cnt (fun j => Z.eqb (j_id j) id) (takings t)) (crew w))
      = (list_sum (map (fun t => cnt (fun j => Z.eqb (j_id j) id) (holdings t)) (crew w))
         + list_sum (map (fun t => cnt (fun x => aims id (snd x)) (told t)) (crew w)))%nat).
    { rewrite <- sum_add. f_equal. apply map_ext_in. intros t Hi. unfold takings, holdings, told.
      destruct (ta_body t) as [e wk| |] eqn:Eb; try reflexivity. eapply worker_balance. eapply crew_winv; [exact H|exact Hi|exact Eb]. }
    assert (S2 : (list_sum (map (fun t => cnt (again id) (dues hash t)) (crew w)) <= list_sum (map (fun t => cnt (fun x => aims id (snd x)) (told t)) (crew w)))%nat).
    { apply sum_le. intros t Hi. unfold dues, told. rewrite cnt_map. destruct (ta_body t) as [e wk|e sc z data k|sc cfg k]; cbn [owed].
      - apply cnt_le. intros x Hx. apply again_aims. exact Hx.
      - etransitivity; [apply (cnt_le _ (fun x => reopens id (snd x)))|rewrite per_firing_quiet; [lia|]].
        + intros [n o]. cbn. destruct o; try discriminate; auto.
        + intros next o Ho. unfold cron_calls in Ho. destruct (enc_data (xe_codec e) data); [|destruct Ho]. destruct Ho as [<-|[]]. reflexivity.
      - etransitivity; [apply (cnt_le _ (fun x => reopens id (snd x)))|rewrite per_firing_quiet; [lia|]].
        + intros [n o]. cbn. destruct o; try discriminate; auto.
        + intros next o Ho. apply in_map_iff in Ho. destruct Ho as [q [<- _]]. reflexivity. }
    lia.
  Qed.

  Theorem exclusive_thm es w : sound_table t0 -> frun (fleet_init t0) es = Some w ->
    (forall o id, In o (called es) -> again id o = false) ->
    NoDup (map j_id (flat_map holdings (crew w))).
  Proof.
    intros Ht H Ho. apply (NoDup_count_occ Z.eq_dec). intro id. pose proof (holders_thm es w id Ht H) as B.
    assert (Z1 : cnt (again id) (called es) = 0%nat) by (apply cnt_none; intros o Hi; apply Ho; exact Hi). unfold cnt in Z1. rewrite Z1 in B.
    replace (count_occ Z.eq_dec (map j_id (flat_map (holdings (Schedule := Schedule) (Zone := Zone)) (crew w))) id)
      with (length (filter (fun j => Z.eqb (j_id j) id) (flat_map (holdings (Schedule := Schedule) (Zone := Zone)) (crew w)))); [lia|].
    generalize (flat_map (holdings (Schedule := Schedule) (Zone := Zone)) (crew w)). intro l. clear. induction l as [|j l IH]; [reflexivity|].
    cbn [map count_occ filter]. destruct (Z.eq_dec (j_id j) id) as [->|Hne].
    - rewrite Z.eqb_refl. cbn. now rewrite IH.
    - rewrite (proj2 (Z.eqb_neq _ _) Hne). exact IH.
  Qed.
End Once.
