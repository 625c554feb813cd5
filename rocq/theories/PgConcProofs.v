(** Lemmas about overlapping calls to the Postgres backend. *)
From Coq Require Import Permutation Sorted.
From Verif Require Import Base Chrono Types TypesProofs Query QueryProofs Memory MemSpec MemProofs
  MemInv MemWake PgRow PgQuery Pg PgSpec PgProofs PgQueryProofs PgOps PgHist PgConc PgConcSpec.

(** * Looking rows up *)

Lemma find_row_some id rows r : find_row id rows = Some r -> In r rows /\ r_id r = id.
Proof. intro H. apply find_some in H. destruct H as [H1 H2]. apply Z.eqb_eq in H2. auto. Qed.
Lemma find_row_none id rows : find_row id rows = None <-> ~ In id (map r_id rows).
Proof.
  unfold find_row. split.
  - intros H Hi. apply in_map_iff in Hi. destruct Hi as [r [E Hi]]. apply (find_none _ _ H) in Hi.
    apply Z.eqb_neq in Hi. congruence.
  - intro H. destruct (find _ rows) as [r|] eqn:E; [|reflexivity]. apply find_row_some in E. destruct E as [E1 <-].
    destruct H. apply in_map, E1.
Qed.
Lemma find_row_in rows r : NoDup (map r_id rows) -> In r rows -> find_row (r_id r) rows = Some r.
Proof.
  intros Hn Hi. destruct (find_row (r_id r) rows) as [r'|] eqn:E.
  - apply find_row_some in E. destruct E as [E1 E2]. f_equal. eapply nodup_map_eq; eauto.
  - apply find_row_none in E. destruct E. apply in_map, Hi.
Qed.
Lemma find_row_split rows id r : NoDup (map r_id rows) -> find_row id rows = Some r ->
  exists pre post, rows = pre ++ r :: post /\ r_id r = id.
Proof. intros Hn H. apply find_row_some in H. destruct H as [H1 H2]. apply in_split in H1. destruct H1 as [pre [post ->]]. eauto. Qed.
Lemma find_row_mid pre b a post : NoDup (map r_id (pre ++ b :: post)) -> r_id a = r_id b ->
  find_row (r_id b) (pre ++ a :: post) = Some a.
Proof.
  intros Hn E. rewrite <- E. apply find_row_in; [|apply in_or_app; right; left; reflexivity].
  rewrite map_app in *. cbn in *. rewrite E. exact Hn.
Qed.
Lemma find_row_other pre b a post id : r_id a = r_id b -> id <> r_id b ->
  find_row id (pre ++ a :: post) = find_row id (pre ++ b :: post).
Proof.
  intros E H. unfold find_row. induction pre as [|x pre IH]; cbn.
  - rewrite E. destruct (Z.eqb_spec (r_id b) id); [congruence|reflexivity].
  - destruct (r_id x =? id); [reflexivity|exact IH].
Qed.
Lemma find_row_filter keep id rows : (forall r, In r rows -> r_id r = id -> keep r = true) ->
  find_row id (filter keep rows) = find_row id rows.
Proof.
  intro H. unfold find_row. induction rows as [|r rows IH]; [reflexivity|]. cbn.
  assert (IH' := IH (fun r Hr => H r (or_intror Hr))). destruct (Z.eqb_spec (r_id r) id).
  - rewrite (H r (or_introl eq_refl) e). cbn. destruct (Z.eqb_spec (r_id r) id); [reflexivity|congruence].
  - destruct (keep r); [cbn; destruct (Z.eqb_spec (r_id r) id); [congruence|]|]; exact IH'.
Qed.
Lemma find_row_app id rows r : r_id r <> id -> find_row id (rows ++ [r]) = find_row id rows.
Proof.
  intro H. unfold find_row. induction rows as [|x rows IH]; cbn.
  - destruct (Z.eqb_spec (r_id r) id); [congruence|reflexivity].
  - destruct (r_id x =? id); [reflexivity|exact IH].
Qed.

Lemma mk_tbl_eta t : mk_tbl (t_rows t) (t_next t) = t.
Proof. destruct t; reflexivity. Qed.

Lemma row_locked_true cs id : row_locked cs id = true <-> exists i c, nth_error cs i = Some c /\ In id (row_locks c).
Proof.
  unfold row_locked. rewrite existsb_exists. split.
  - intros [c [Hc H]]. apply In_nth_error in Hc. destruct Hc as [i Hi]. exists i, c. split; [exact Hi|].
    apply existsb_exists in H. destruct H as [x [Hx E]]. apply Z.eqb_eq in E. subst x. exact Hx.
  - intros [i [c [Hi H]]]. apply nth_error_In in Hi. exists c. split; [exact Hi|]. apply existsb_exists.
    exists id. split; [exact H|apply Z.eqb_refl].
Qed.
Lemma row_locked_false cs id : row_locked cs id = false -> forall i c, nth_error cs i = Some c -> ~ In id (row_locks c).
Proof. intros H i c Hi Hl. assert (row_locked cs id = true) by (apply row_locked_true; eauto). congruence. Qed.

Section Proofs.
Variable ident : option Z -> option string -> list status -> Z.

(** * One action *)

(** Where calls of each kind can stand. *)
Inductive stands : mop -> qpc -> Prop :=
| st_start o : stands o QStart
| st_done o r : stands o (QDone r)
| st_scan ex now ids : stands (OpLoad ex) (QScan now ids)
| st_take ex now id : stands (OpLoad ex) (QHeld now id)
| st_held o now id : target o = Some id -> stands o (QHeld now id)
| st_doom ps now taken rest : stands (OpPrune ps) (QDooming now taken rest)
| st_drawn e now id : stands (OpEnqueue e) (QDrawn now id)
| st_begun e uq now : eq_criteria e = Some uq -> stands (OpEnqueue e) (QBegun now)
| st_alone e uq now : eq_criteria e = Some uq -> stands (OpEnqueue e) (QAlone now)
| st_free e uq now : eq_criteria e = Some uq -> stands (OpEnqueue e) (QFree now)
| st_found e uq rp now id : eq_criteria e = Some uq -> uc_on_conflict uq = Replace rp -> stands (OpEnqueue e) (QFound now id)
| st_replacing e uq rp now id : eq_criteria e = Some uq -> uc_on_conflict uq = Replace rp ->
    stands (OpEnqueue e) (QReplacing now id).

(** The rows a call may change in its next action: those it has locked. *)
Inductive effect (i : nat) (cs : list qcall) (t : tbl) (c : qcall) : tbl -> qpc -> list qevent -> Prop :=
| ef_none pc' :
    (forall id, In id (row_locks (mk_qcall (qc_op c) pc')) ->
       In id (row_locks c) \/ (row_locked cs id = false /\ In id (map r_id (t_rows t)))) ->
    (forall now id, pc' = QDrawn now id -> qc_pc c = QDrawn now id) ->
    effect i cs t c t pc' []
| ef_draw now e : qc_op c = OpEnqueue e -> t_next t <= 2147483647 ->
    effect i cs t c (mk_tbl (t_rows t) (t_next t + 1)) (QDrawn now (t_next t)) []
| ef_insert now id key e : qc_op c = OpEnqueue e -> qc_pc c = QDrawn now id ->
    effect i cs t c (mk_tbl (t_rows t ++ [new_row now id key e]) (t_next t)) (QDone (RId (Ok id)))
      [QvInsert i (new_row now id key e)]
| ef_write pre b a post res :
    t_rows t = pre ++ b :: post -> In (r_id b) (row_locks c) -> r_id a = r_id b ->
    row_change (qc_op c) res b a -> purpose_change (qc_op c) b a ->
    (forall ex, qc_op c = OpLoad ex -> exists now, qc_pc c = QHeld now (r_id b) /\ pg_take now b = Some a) ->
    (forall id, target (qc_op c) = Some id -> exists now, qc_pc c = QHeld now (r_id b)
       /\ pg_step ident now t (qc_op c) = (mk_tbl (pre ++ a :: post) (t_next t), res)) ->
    effect i cs t c (mk_tbl (pre ++ a :: post) (t_next t)) (QDone res) [QvWrite i (qc_op c) b a]
| ef_delete ps now taken : qc_op c = OpPrune ps -> qc_pc c = QDooming now taken [] ->
    effect i cs t c (mk_tbl (filter (fun r => negb (existsb (Z.eqb (r_id r)) taken)) (t_rows t)) (t_next t))
      (QDone (RUnit (Ok tt))) [QvDelete i (filter (fun r => existsb (Z.eqb (r_id r)) taken) (t_rows t))].

Lemma no_locks_done i cs t c res : effect i cs t c t (QDone res) [].
Proof. apply ef_none; [intros id []|discriminate]. Qed.

Lemma draw_effect i cs t c now e t' pc' : qc_op c = OpEnqueue e -> draw now t e = (t', pc') ->
  effect i cs t c t' pc' [] /\ stands (OpEnqueue e) pc'.
Proof.
  intros Ho H. unfold draw in H. destruct (pg_request_ok e); cbn [negb] in H.
  - destruct (Z.ltb_spec 2147483647 (t_next t)); injection H as <- <-.
    + split; [apply no_locks_done|constructor].
    + split; [eapply ef_draw; eauto|constructor].
  - injection H as <- <-. split; [apply no_locks_done|constructor].
Qed.

Lemma load_action_effect i now cs t ex pc t' pc' ev : NoDup (map r_id (t_rows t)) ->
  stands (OpLoad ex) pc -> load_action i now cs t ex pc = (t', pc', ev) ->
  effect i cs t (mk_qcall (OpLoad ex) pc) t' pc' ev /\ stands (OpLoad ex) pc'.
Proof.
  intros Hn Hs H. inversion Hs; subst; cbn [load_action] in H; try discriminate.
  - destruct (storable ex); cbn [negb] in H; injection H as <- <- <-; [|split; [apply no_locks_done|constructor]].
    split; [|constructor]. apply ef_none; [intros id []|discriminate].
  - injection H as <- <- <-. split; [apply no_locks_done|constructor].
  - destruct ids as [|id ids]; [injection H as <- <- <-; split; [apply no_locks_done|constructor]|].
    assert (Hskip : effect i cs t (mk_qcall (OpLoad ex) (QScan now0 (id :: ids))) t (QScan now0 ids) []
                    /\ stands (OpLoad ex) (QScan now0 ids)).
    { split; [|constructor]. apply ef_none; [intros x []|discriminate]. }
    destruct (row_locked cs id) eqn:El; [injection H as <- <- <-; exact Hskip|].
    destruct (find_row id (t_rows t)) as [r|] eqn:Ef; [|injection H as <- <- <-; exact Hskip].
    destruct (pg_ready now0 ex r) eqn:Er; injection H as <- <- <-; [|exact Hskip].
    split; [|constructor]. apply ef_none; [|discriminate]. intros x [<-|[]]. right. split; [exact El|].
    apply find_row_some in Ef. destruct Ef as [Hi <-]. apply in_map, Hi.
  - destruct (find_row id (t_rows t)) as [r|] eqn:Ef; [|injection H as <- <- <-; split; [apply no_locks_done|constructor]].
    destruct (find_row_split _ _ _ Hn Ef) as [pre [post [E <-]]].
    destruct (pg_take now0 r) as [r'|] eqn:Et.
    + rewrite E in H, Hn. rewrite (update_rows_one pre r post _ r' Et Hn) in H. injection H as <- <- <-.
      split; [|constructor]. assert (Hid : r_id r' = r_id r).
      { unfold pg_take in Et. destruct (int4 (r_attempt r + 1)); [|discriminate]. injection Et as <-. reflexivity. }
      apply (ef_write i cs t (mk_qcall (OpLoad ex) (QHeld now0 (r_id r)))); try assumption.
      * left. reflexivity.
      * cbn [qc_op row_change]. pose proof Et as Et'. unfold pg_take in Et'. destruct (int4 (r_attempt r + 1)) as [x|] eqn:Ex; [|discriminate].
        injection Et' as E'. unfold int4 in Ex. destruct (in_i32 (r_attempt r + 1)); [|discriminate]. injection Ex as <-.
        destruct (job_of_row_cases r') as [[j [Ej Hj]]|[Hno [er Ej]]]; rewrite Ej; clear Ej Et; subst r'.
        -- split; [reflexivity|]. split; [reflexivity|]. split; [reflexivity|]. left. eauto.
        -- split; [reflexivity|]. split; [reflexivity|]. split; [reflexivity|]. right. eauto.
      * clear -Et. unfold pg_take in Et. destruct (int4 (r_attempt r + 1)); [|discriminate]. injection Et as <-.
        cbn. repeat split.
      * intros ex' _. exists now0. auto.
      * cbn. discriminate.
    + assert (Hx : match update_rows (r_id r) (pg_take now0) (t_rows t) with
                   | Some (_, _) | None => (t, QDone (RJob (Err BadState)), @nil qevent) end = (t', pc', ev)).
      { destruct (update_rows (r_id r) (pg_take now0) (t_rows t)) as [[? ?]|]; exact H. }
      destruct (update_rows (r_id r) (pg_take now0) (t_rows t)) as [[? ?]|]; injection Hx as <- <- <-;
        (split; [apply no_locks_done|constructor]).
Qed.

Lemma target_absent now t o id : target o = Some id -> find_row id (t_rows t) = None -> NoDup (map r_id (t_rows t)) ->
  fst (pg_step ident now t o) = t.
Proof.
  intros Ho Hf Hn. destruct (pg_step ident now t o) as [t' r] eqn:E. cbn. apply pg_step_cases in E; [|exact Hn].
  apply find_row_none in Hf. destruct E as [[-> _]|[[e [key [-> _]]]|[[pre [b [a [post [E1 [_ [_ [H _]]]]]]]]|[ps [keep [-> _]]]]]].
  - reflexivity.
  - discriminate.
  - exfalso. apply Hf. rewrite E1. apply in_map_iff. exists b. split; [|apply in_or_app; right; left; reflexivity].
    destruct o; try discriminate Ho; injection Ho as <-; cbn in H; tauto.
  - discriminate.
Qed.

Lemma row_action_effect i now cs t o id pc t' pc' ev : NoDup (map r_id (t_rows t)) -> target o = Some id ->
  stands o pc -> row_action ident i now cs t o id pc = (t', pc', ev) ->
  effect i cs t (mk_qcall o pc) t' pc' ev /\ stands o pc'.
Proof.
  intros Hn Ho Hs H. inversion Hs; subst; try discriminate Ho; cbn [row_action] in H.
  - destruct (find_row id (t_rows t)) as [r|] eqn:Ef.
    + injection H as <- <- <-. apply find_row_some in Ef. destruct Ef as [Hi Hid].
      destruct (row_locked cs id) eqn:El.
      * split; [|constructor]. apply ef_none; [intros x []|discriminate].
      * split; [|constructor; exact Ho]. apply ef_none; [|discriminate]. intros x [<-|[]]. right. split; [exact El|].
        rewrite <- Hid. apply in_map, Hi.
    + injection H as <- <- <-. split; [apply no_locks_done|constructor].
  - injection H as <- <- <-. split; [apply no_locks_done|constructor].
  - assert (id0 = id) by congruence. subst id0. destruct (pg_step ident now0 t o) as [t1 res] eqn:E. injection H as <- <- <-.
    split; [|constructor]. pose proof E as E'. apply pg_step_cases in E; [|exact Hn].
    destruct E as [[-> Hq]|[[e [key [-> _]]]|[[pre [b [a [post [E1 [-> [E2 [E3 E4]]]]]]]]|[ps [keep [-> _]]]]]]; try discriminate Ho.
    + assert (Hres : exists e, res = RUnit (Err e)) by (destruct o; try discriminate Ho; exact Hq).
      destruct Hres as [e ->]. apply no_locks_done.
    + assert (Hb : r_id b = id /\ res = RUnit (Ok tt)).
      { destruct o; try discriminate Ho; injection Ho as <-; cbn in E3; tauto. }
      destruct Hb as [Hb ->]. cbn [t_rows]. rewrite E1 in *. subst id. rewrite (find_row_mid pre b b post Hn eq_refl).
      rewrite (find_row_mid pre b a post Hn E2).
      apply (ef_write i cs t (mk_qcall o (QHeld now0 (r_id b)))); try assumption.
      * left. reflexivity.
      * intros ex Hex. cbn in Hex. subst o. discriminate.
      * intros id' _. exists now0. auto.
Qed.

Lemma prune_action_effect i now cs t ps pc t' pc' ev :
  stands (OpPrune ps) pc -> prune_action i now cs t ps pc = (t', pc', ev) ->
  effect i cs t (mk_qcall (OpPrune ps) pc) t' pc' ev /\ stands (OpPrune ps) pc'.
Proof.
  intros Hs H. inversion Hs; subst; cbn [prune_action] in H; try (cbn in *; discriminate).
  - destruct (pg_doomed now ps (t_rows t)) as [[ids|]|]; try (injection H as <- <- <-; split; [apply no_locks_done|constructor]).
    destruct (pg_spec_ok (ps_executors ps)); injection H as <- <- <-; [|split; [apply no_locks_done|constructor]].
    split; [|constructor]. apply ef_none; [intros x []|discriminate].
  - injection H as <- <- <-. split; [apply no_locks_done|constructor].
  - destruct rest as [|id rest].
    + injection H as <- <- <-. split; [|constructor]. eapply ef_delete; reflexivity.
    + destruct (find_row id (t_rows t)) as [r|] eqn:Ef; [destruct (row_locked cs id) eqn:El|]; injection H as <- <- <-;
        (split; [|constructor]); (apply ef_none; [|discriminate]); cbn; auto.
      intros x [<-|Hx]; [|auto]. right. split; [exact El|]. apply find_row_some in Ef. destruct Ef as [Hi <-]. apply in_map, Hi.
Qed.

Lemma commit_replace_effect i cs t c rp e uq id t' pc' ev : NoDup (map r_id (t_rows t)) ->
  qc_op c = OpEnqueue e -> eq_criteria e = Some uq -> uc_on_conflict uq = Replace rp ->
  (In id (map r_id (t_rows t)) -> In id (row_locks c)) ->
  commit_replace i rp e id t = (t', pc', ev) ->
  effect i cs t c t' pc' ev /\ stands (OpEnqueue e) pc'.
Proof.
  intros Hn Ho Hc Hr Hl H. unfold commit_replace in H.
  destruct (pg_replace rp e id t) as [t1|] eqn:E; [|injection H as <- <- <-; split; [apply no_locks_done|constructor]].
  injection H as <- <- <-. split; [|constructor].
  unfold pg_replace in E. destruct (pg_assignments rp e) as [|a0 l] eqn:Ea; [discriminate|]. rewrite <- Ea in E.
  destruct (forallb fst (pg_assignments rp e)); [|discriminate].
  set (f := fun r1 => Some (fold_left (fun r2 (a0 : bool * (row -> row)) => snd a0 r2) (pg_assignments rp e) r1)) in E.
  pose proof (update_rows_spec id f (t_rows t) Hn) as Hu. destruct (update_rows id f (t_rows t)) as [[rows n]|]; [|discriminate].
  injection E as <-. destruct Hu as [[-> [-> Hno]]|[-> [pre [r [r' [post [E [-> [E2 [E3 _]]]]]]]]]].
  - rewrite mk_tbl_eta. destruct (find_row id (t_rows t)) as [r|] eqn:Ef; [|apply no_locks_done].
    exfalso. apply find_row_some in Ef. destruct Ef as [E1 E2]. apply (Hno r E1 E2).
  - unfold f in E3. injection E3 as <-. cbn [t_rows].
    destruct (assignments_keep rp e r) as [K1 [K2 [K3 [K4 [K5 [K6 [K7 K8]]]]]]].
    rewrite E in *. subst id. rewrite (find_row_mid pre r r post Hn eq_refl), (find_row_mid pre r _ post Hn K1).
    rewrite <- Ho. apply (ef_write i cs t c); try assumption.
    + apply Hl. rewrite map_app. apply in_or_app. right. left. reflexivity.
    + rewrite Ho. cbn. auto.
    + rewrite Ho. cbn. split; [exact K5|]. split; [exact K6|]. split; [exact K7|]. split; [exact K8|]. exists uq, rp. auto.
    + rewrite Ho. discriminate.
    + rewrite Ho. discriminate.
Qed.

Lemma unique_action_effect i now pick cs t e uq pc t' pc' ev : NoDup (map r_id (t_rows t)) ->
  eq_criteria e = Some uq -> stands (OpEnqueue e) pc ->
  unique_action ident i now pick cs t e uq pc = (t', pc', ev) ->
  effect i cs t (mk_qcall (OpEnqueue e) pc) t' pc' ev /\ stands (OpEnqueue e) pc'.
Proof.
  intros Hn Hc Hs H. inversion Hs; subst; cbn [unique_action] in H; try (cbn in *; discriminate);
    repeat match goal with E : eq_criteria e = Some ?x |- _ => match x with uq => fail 1 | _ => assert (x = uq) by congruence; subst x end end.
  - injection H as <- <- <-. split; [|econstructor; eauto]. apply ef_none; [intros x []|discriminate].
  - injection H as <- <- <-. split; [apply no_locks_done|constructor].
  - unfold commit_insert in H. injection H as <- <- <-. split; [|constructor]. eapply ef_insert; reflexivity.
  - injection H as <- <- <-. destruct (advisory_held ident cs (request_ident ident uq e)); (split; [|econstructor; eauto]);
      (apply ef_none; [intros x []|discriminate]).
  - destruct (pg_window uq (eq_scheduled_at e)) as [w|]; [|injection H as <- <- <-; split; [apply no_locks_done|constructor]].
    destruct (pg_window_ok uq (eq_executor e) w); cbn [negb] in H; [|injection H as <- <- <-; split; [apply no_locks_done|constructor]].
    cbv zeta in H. destruct (nth_error _ _) as [r|].
    + destruct (uc_on_conflict uq) as [|rp] eqn:Er; [injection H as <- <- <-; split; [apply no_locks_done|constructor]|].
      destruct (existsb _ _); injection H as <- <- <-; [|split; [apply no_locks_done|constructor]].
      split; [|econstructor; eauto]. apply ef_none; [intros x []|discriminate].
    + injection H as <- <- <-. split; [|econstructor; eauto]. apply ef_none; [intros x []|discriminate].
  - destruct (draw now0 t e) as [t1 pc1] eqn:E. injection H as <- <- <-. eapply draw_effect; [|exact E]. reflexivity.
  - destruct (find_row id (t_rows t)) as [r|] eqn:Ef.
    + apply find_row_some in Ef. destruct Ef as [Hi Hid].
      injection H as <- <- <-. destruct (row_locked cs id) eqn:El; (split; [|econstructor; eauto]);
        (apply ef_none; [|discriminate]); [intros x []|]. intros x [<-|[]]. right. split; [exact El|]. rewrite <- Hid. apply in_map, Hi.
    + match goal with E : uc_on_conflict uq = _ |- _ => rewrite E in H end. eapply commit_replace_effect; eauto. intro Hi. apply find_row_none in Ef. contradiction.
  - match goal with E : uc_on_conflict uq = _ |- _ => rewrite E in H end. eapply commit_replace_effect; eauto. intros _. left. reflexivity.
Qed.

Lemma action_effect i now pick cs t c t' pc' ev : NoDup (map r_id (t_rows t)) ->
  stands (qc_op c) (qc_pc c) -> action ident i now pick cs t c = (t', pc', ev) ->
  effect i cs t c t' pc' ev /\ stands (qc_op c) pc'.
Proof.
  intros Hn Hs H. destruct c as [o pc]. cbn [qc_op qc_pc] in *. unfold action in H. cbn [qc_op qc_pc] in H.
  assert (Hplain : target o = None -> (forall e, o <> OpEnqueue e) -> (forall ex, o <> OpLoad ex) -> (forall ps, o <> OpPrune ps) ->
    match pc with QStart => (t, QDone (snd (pg_step ident now t o)), @nil qevent) | _ => (t, pc, []) end = (t', pc', ev) ->
    effect i cs t (mk_qcall o pc) t' pc' ev /\ stands o pc').
  { intros Ht N1 N2 N3 Hx. inversion Hs; subst; try congruence; injection Hx as <- <- <-; (split; [apply no_locks_done|constructor]). }
  destruct o; cbn [target] in H; cbv iota beta in H.
  1: { destruct (eq_criteria e) as [uq|] eqn:Ec; [eapply unique_action_effect; eauto|].
       unfold insert_action in H. inversion Hs; subst; try congruence; try (cbn in *; discriminate).
       - destruct (draw now t e) as [t1 pc1] eqn:E. injection H as <- <- <-. eapply draw_effect; [|exact E]. reflexivity.
       - injection H as <- <- <-. split; [apply no_locks_done|constructor].
       - unfold commit_insert in H. injection H as <- <- <-. split; [|constructor]. eapply ef_insert; reflexivity. }
  1: { eapply load_action_effect; eauto. }
  1-5: eapply row_action_effect; eauto; reflexivity.
  1: eapply prune_action_effect; eauto.
  1-2: eapply row_action_effect; eauto; reflexivity.
  all: apply Hplain; [reflexivity|discriminate|discriminate|discriminate|destruct pc; exact H].
Qed.

(** * The invariant *)

Definition drawn (c : qcall) (id : Z) : Prop := exists now, qc_pc c = QDrawn now id.

Record qinv (s : qstate) : Prop := {
  iv_nodup : NoDup (map r_id (t_rows (q_tbl s)));
  iv_below : forall r, In r (t_rows (q_tbl s)) -> 1 <= r_id r < t_next (q_tbl s);
  iv_next : 1 <= t_next (q_tbl s) <= 2147483648;
  iv_stands : forall i c, nth_error (q_calls s) i = Some c -> stands (qc_op c) (qc_pc c);
  iv_drawn : forall i c id, nth_error (q_calls s) i = Some c -> drawn c id ->
    1 <= id < t_next (q_tbl s) /\ ~ In id (map r_id (t_rows (q_tbl s)));
  iv_drawn_apart : forall i k c d id, nth_error (q_calls s) i = Some c -> nth_error (q_calls s) k = Some d ->
    drawn c id -> drawn d id -> i = k;
  iv_locked : forall i c id, nth_error (q_calls s) i = Some c -> In id (row_locks c) -> In id (map r_id (t_rows (q_tbl s)));
  iv_locks_apart : forall i k c d id, nth_error (q_calls s) i = Some c -> nth_error (q_calls s) k = Some d ->
    In id (row_locks c) -> In id (row_locks d) -> i = k;
  iv_ready : forall i ex now id, nth_error (q_calls s) i = Some (mk_qcall (OpLoad ex) (QHeld now id)) ->
    exists r, find_row id (t_rows (q_tbl s)) = Some r /\ pg_ready now ex r = true
}.

Lemma inv_opened t : sound_table t -> qinv (opened t).
Proof.
  intros [H1 [H2 H3]]. split; cbn; try assumption.
  all: intros [|i]; intros; discriminate.
Qed.

Lemma nth_set {A} i (x : A) l k y : nth_error (set_nth i x l) k = Some y ->
  (k = i /\ y = x /\ exists z, nth_error l i = Some z) \/ (k <> i /\ nth_error l k = Some y).
Proof.
  rewrite set_nth_nth. destruct (Nat.eqb_spec i k) as [->|H]; [|right; auto].
  destruct (nth_error l k) as [z|]; [|discriminate]. intro H. injection H as <-. left. eauto.
Qed.

(** Rows locked by others, and drawn by others, are as before. *)
Lemma effect_frame i cs t c t' pc' ev : effect i cs t c t' pc' ev -> NoDup (map r_id (t_rows t)) ->
  forall id, ~ In id (row_locks c) -> ~ drawn c id -> find_row id (t_rows t') = find_row id (t_rows t).
Proof.
  intros H Hn id Hl Hd. destruct H; try reflexivity; cbn [t_rows].
  - apply find_row_app. cbn. intros ->. apply Hd. exists now. assumption.
  - rewrite H. apply find_row_other; [assumption|]. intros ->. contradiction.
  - apply find_row_filter. intros r Hr Hid. apply negb_true_iff. destruct (existsb (Z.eqb (r_id r)) taken) eqn:E; [|reflexivity].
    exfalso. apply Hl. unfold row_locks. rewrite H0. apply existsb_exists in E. destruct E as [x [Hx E]].
    apply Z.eqb_eq in E. congruence.
Qed.

Lemma effect_ids i cs t c t' pc' ev : effect i cs t c t' pc' ev ->
  forall id, In id (map r_id (t_rows t')) ->
    In id (map r_id (t_rows t)) \/ (drawn c id /\ exists key e now, t_rows t' = t_rows t ++ [new_row now id key e]).
Proof.
  intros H id Hi. destruct H; try (left; exact Hi); cbn [t_rows] in *.
  - rewrite map_app in Hi. apply in_app_or in Hi. destruct Hi as [Hi|[<-|[]]]; [left; exact Hi|]. right. split; [exists now; assumption|].
    cbn. eauto.
  - left. rewrite H. rewrite map_app in *. cbn in *. rewrite H1 in Hi. exact Hi.
  - left. apply in_map_iff in Hi. destruct Hi as [r [<- Hi]]. apply filter_In in Hi. apply in_map. tauto.
Qed.

Lemma find_row_present id rows : In id (map r_id rows) <-> exists r, find_row id rows = Some r.
Proof.
  destruct (find_row id rows) as [r|] eqn:E.
  - split; [eauto|]. intros _. apply find_row_some in E. destruct E as [H <-]. apply in_map, H.
  - apply find_row_none in E. split; [tauto|]. intros [r H]. discriminate.
Qed.

Lemma effect_inv s i c t' pc' ev : qinv s -> nth_error (q_calls s) i = Some c ->
  effect i (q_calls s) (q_tbl s) c t' pc' ev -> stands (qc_op c) pc' ->
  (forall ex now id, mk_qcall (qc_op c) pc' = mk_qcall (OpLoad ex) (QHeld now id) ->
     exists r, find_row id (t_rows t') = Some r /\ pg_ready now ex r = true) ->
  qinv (mk_q t' (set_nth i (mk_qcall (qc_op c) pc') (q_calls s))).
Proof.
  intros Hinv Hc He Hs Hready.
  assert (Hnodup : NoDup (map r_id (t_rows t'))).
  { pose proof (iv_nodup s Hinv) as Hn. destruct He; cbn [t_rows]; try exact Hn.
    - rewrite map_app. cbn. apply (Permutation_NoDup (l := id :: map r_id (t_rows (q_tbl s)))); [apply Permutation_cons_append|].
      constructor; [|exact Hn]. apply (iv_drawn s Hinv i c id Hc). exists now. assumption.
    - rewrite H in Hn. rewrite map_app in *. cbn in *. rewrite H1. exact Hn.
    - apply nodup_filter_map, Hn. }
  assert (Hnext : t_next (q_tbl s) <= t_next t') by (destruct He; cbn; lia).
  assert (Hframe := effect_frame _ _ _ _ _ _ _ He (iv_nodup s Hinv)).
  split; cbn [q_tbl q_calls].
  - exact Hnodup.
  - intros r Hr. assert (Hi := in_map r_id _ _ Hr). destruct (effect_ids _ _ _ _ _ _ _ He _ Hi) as [Hi'|[Hd _]].
    + apply in_map_iff in Hi'. destruct Hi' as [r0 [E Hr0]]. pose proof (iv_below s Hinv r0 Hr0). lia.
    + pose proof (iv_drawn s Hinv i c _ Hc Hd). lia.
  - pose proof (iv_next s Hinv). destruct He; cbn in *; lia.
  - intros k d Hk. apply nth_set in Hk. destruct Hk as [[-> [-> _]]|[_ Hk]]; [exact Hs|eapply iv_stands; eauto].
  - intros k d id Hk Hd. apply nth_set in Hk. destruct Hk as [[-> [-> _]]|[Hne Hk]].
    + destruct Hd as [now Hd]. cbn in Hd. destruct He; try discriminate Hd.
      * assert (Hd' : drawn c id) by (exists now; auto). exact (iv_drawn s Hinv i c id Hc Hd').
      * injection Hd as _ <-. cbn. pose proof (iv_next s Hinv). split; [lia|]. intro Hi.
        apply in_map_iff in Hi. destruct Hi as [r [E Hr]]. pose proof (iv_below s Hinv r Hr). lia.
    + destruct (iv_drawn s Hinv k d id Hk Hd) as [Hb Hno]. split; [lia|]. intro Hi.
      destruct (effect_ids _ _ _ _ _ _ _ He _ Hi) as [Hi'|[Hd' _]]; [contradiction|].
      apply Hne. exact (iv_drawn_apart s Hinv k i d c id Hk Hc Hd Hd').
  - assert (Hone : forall k d id, k <> i -> nth_error (q_calls s) k = Some d -> drawn d id ->
        drawn (mk_qcall (qc_op c) pc') id -> False).
    { intros k d id Hne Hk Hd [now Hd']. cbn in Hd'. destruct He; try discriminate Hd'.
      - assert (drawn c id) by (exists now; auto). apply Hne. eapply (iv_drawn_apart s Hinv); eauto.
      - injection Hd' as _ <-. pose proof (iv_drawn s Hinv k d _ Hk Hd). lia. }
    intros k1 k2 c1 c2 id H1 H2 D1 D2. apply nth_set in H1. apply nth_set in H2.
    destruct H1 as [[-> [-> _]]|[N1 H1]], H2 as [[-> [-> _]]|[N2 H2]]; try reflexivity.
    + destruct (Hone k2 c2 id N2 H2 D2 D1).
    + destruct (Hone k1 c1 id N1 H1 D1 D2).
    + eapply (iv_drawn_apart s Hinv); eauto.
  - intros k d id Hk Hl. apply nth_set in Hk. destruct Hk as [[-> [-> _]]|[Hne Hk]].
    + assert (Hi : In id (map r_id (t_rows (q_tbl s)))).
      { destruct He; try (destruct Hl; fail). destruct (H id Hl) as [H'|[_ H']]; [eapply iv_locked; eauto|exact H']. }
      destruct He; try (destruct Hl; fail). exact Hi.
    + apply find_row_present. rewrite Hframe.
      * apply find_row_present. eapply iv_locked; eauto.
      * intro Hl'. apply Hne. eapply (iv_locks_apart s Hinv); eauto.
      * intro Hd. apply (iv_drawn s Hinv i c id Hc) in Hd. destruct Hd as [_ Hd]. apply Hd. eapply iv_locked; eauto.
  - assert (Hone : forall k d id, k <> i -> nth_error (q_calls s) k = Some d -> In id (row_locks d) ->
        In id (row_locks (mk_qcall (qc_op c) pc')) -> False).
    { intros k d id Hne Hk Hd Hd'. destruct He; try (destruct Hd'; fail). destruct (H id Hd') as [Hl|[Hl _]].
      - apply Hne. eapply (iv_locks_apart s Hinv); eauto.
      - eapply row_locked_false; eauto. }
    intros k1 k2 c1 c2 id H1 H2 D1 D2. apply nth_set in H1. apply nth_set in H2.
    destruct H1 as [[-> [-> _]]|[N1 H1]], H2 as [[-> [-> _]]|[N2 H2]]; try reflexivity.
    + destruct (Hone k2 c2 id N2 H2 D2 D1).
    + destruct (Hone k1 c1 id N1 H1 D1 D2).
    + eapply (iv_locks_apart s Hinv); eauto.
  - intros k ex now id Hk. apply nth_set in Hk. destruct Hk as [[-> [Hk _]]|[Hne Hk]].
    + apply Hready. symmetry. exact Hk.
    + destruct (iv_ready s Hinv k ex now id Hk) as [r [Hf Hr]]. exists r. split; [|exact Hr]. rewrite Hframe; [exact Hf| |].
      * intro Hl. apply Hne. eapply (iv_locks_apart s Hinv k i); eauto. left. reflexivity.
      * intro Hd. apply (iv_drawn s Hinv i c id Hc) in Hd. destruct Hd as [_ Hd]. apply Hd. apply find_row_present. eauto.
Qed.

Lemma action_ready i now pick cs t c t' pc' ev : action ident i now pick cs t c = (t', pc', ev) ->
  stands (qc_op c) (qc_pc c) ->
  forall ex began id, mk_qcall (qc_op c) pc' = mk_qcall (OpLoad ex) (QHeld began id) ->
     exists r, find_row id (t_rows t') = Some r /\ pg_ready began ex r = true.
Proof.
  intros H Hs ex began id E. injection E as Eo ->. destruct c as [o pc]. cbn in Eo, Hs. subst o. cbn [action qc_op qc_pc] in H.
  unfold action in H. cbn [qc_op qc_pc] in H. inversion Hs; subst; cbn [load_action] in H; try discriminate.
  - destruct (negb (storable ex)); discriminate.
  - destruct ids as [|x ids]; [discriminate|]. injection H as <- H _.
    destruct (row_locked cs x); [discriminate|]. destruct (find_row x (t_rows t)) as [r|] eqn:Ef; [|discriminate].
    destruct (pg_ready now0 ex r) eqn:Er; [|discriminate]. injection H as <- <-. eauto.
  - destruct (find_row id0 (t_rows t)) as [r|]; [|discriminate].
    destruct (update_rows id0 (pg_take now0) (t_rows t)) as [[? ?]|]; [|discriminate].
    destruct (pg_take now0 r); discriminate.
Qed.

(** Steps. *)
Lemma qstep_run s i now pick c : nth_error (q_calls s) i = Some c ->
  exists t' pc' ev, action ident i now pick (q_calls s) (q_tbl s) c = (t', pc', ev)
    /\ qstep ident s (QRun i now pick) = (mk_q t' (set_nth i (mk_qcall (qc_op c) pc') (q_calls s)), ev).
Proof.
  intro H. cbn [qstep]. rewrite H. destruct (action ident i now pick (q_calls s) (q_tbl s) c) as [[t' pc'] ev]. eauto 10.
Qed.

Lemma nth_snoc {A} (l : list A) x k y : nth_error (l ++ [x]) k = Some y -> nth_error l k = Some y \/ y = x.
Proof.
  intro H. destruct (Nat.lt_ge_cases k (length l)).
  - rewrite nth_error_app1 in H by assumption. auto.
  - rewrite nth_error_app2 in H by assumption. destruct (k - length l)%nat as [|n]; [injection H; auto|]. destruct n; discriminate.
Qed.

Lemma gives_up_done e c : exists r, gives_up e c = QDone r.
Proof. unfold gives_up. eauto. Qed.
Lemma step_inv s l : qinv s -> qinv (fst (qstep ident s l)).
Proof.
  intro Hinv. destruct l as [o|i now pick|i er].
  - cbn [qstep fst]. set (s' := mk_q _ _).
    assert (Hk : forall k c, nth_error (q_calls s') k = Some c -> nth_error (q_calls s) k = Some c \/ c = mk_qcall o QStart)
      by (intros k c; apply nth_snoc).
    split; try apply Hinv.
    + intros k c H. destruct (Hk k c H) as [H'| ->]; [eapply iv_stands; eauto|constructor].
    + intros k c id H Hd. destruct (Hk k c H) as [H'| ->]; [eapply (iv_drawn s Hinv); eauto|destruct Hd as [now Hd]; discriminate].
    + intros k1 k2 c1 c2 id H1 H2 D1 D2. destruct (Hk k1 c1 H1) as [H1'| ->]; [|destruct D1; discriminate].
      destruct (Hk k2 c2 H2) as [H2'| ->]; [|destruct D2; discriminate]. eapply (iv_drawn_apart s Hinv); eauto.
    + intros k c id H Hd. destruct (Hk k c H) as [H'| ->]; [eapply (iv_locked s Hinv); eauto|destruct Hd].
    + intros k1 k2 c1 c2 id H1 H2 D1 D2. destruct (Hk k1 c1 H1) as [H1'| ->]; [|destruct D1].
      destruct (Hk k2 c2 H2) as [H2'| ->]; [|destruct D2]. eapply (iv_locks_apart s Hinv); eauto.
    + intros k ex now id H. destruct (Hk k _ H) as [H'|H']; [eapply (iv_ready s Hinv); eauto|discriminate].
  - destruct (nth_error (q_calls s) i) as [c|] eqn:Hc; [|cbn [qstep]; rewrite Hc; exact Hinv].
    destruct (qstep_run s i now pick c Hc) as [t' [pc' [ev [Ha ->]]]]. cbn [fst].
    pose proof (iv_stands s Hinv i c Hc) as Hs.
    destruct (action_effect i now pick _ _ c t' pc' ev (iv_nodup s Hinv) Hs Ha) as [He Hs'].
    eapply effect_inv; eauto. eapply action_ready; eauto.
  - cbn [qstep]. destruct (nth_error (q_calls s) i) as [c|] eqn:Hc; [|exact Hinv]. cbn [fst].
    destruct (gives_up_done er c) as [r ->]. eapply effect_inv; eauto; [apply no_locks_done|constructor|discriminate].
Qed.

Lemma run_inv ls : forall s, qinv s -> qinv (qrun ident s ls).
Proof. induction ls as [|l ls IH]; intros s H; cbn [qrun]; [exact H|]. apply IH, step_inv, H. Qed.

Lemma qrun_app l1 : forall s l2, qrun ident s (l1 ++ l2) = qrun ident (qrun ident s l1) l2.
Proof. induction l1 as [|l l1 IH]; intros s l2; cbn [app qrun]; [reflexivity|apply IH]. Qed.
Lemma qtrace_app l1 : forall s l2, qtrace ident s (l1 ++ l2) = qtrace ident s l1 ++ qtrace ident (qrun ident s l1) l2.
Proof. induction l1 as [|l l1 IH]; intros s l2; cbn [app qrun qtrace]; [reflexivity|]. rewrite IH. apply app_assoc. Qed.

(** A step with an event is an action with it. *)
Lemma step_event s l ev : qinv s -> In ev (snd (qstep ident s l)) ->
  exists i now pick c t' pc', l = QRun i now pick /\ nth_error (q_calls s) i = Some c
    /\ effect i (q_calls s) (q_tbl s) c t' pc' [ev] /\ snd (qstep ident s l) = [ev]
    /\ fst (qstep ident s l) = mk_q t' (set_nth i (mk_qcall (qc_op c) pc') (q_calls s)).
Proof.
  intros Hinv Hin. destruct l as [o|i now pick|i er].
  - destruct Hin.
  - destruct (nth_error (q_calls s) i) as [c|] eqn:Hc; [|cbn [qstep] in Hin; rewrite Hc in Hin; destruct Hin].
    destruct (qstep_run s i now pick c Hc) as [t' [pc' [evs [Ha E]]]]. rewrite E in *. cbn [snd fst] in *.
    destruct (action_effect i now pick _ _ c t' pc' evs (iv_nodup s Hinv) (iv_stands s Hinv i c Hc) Ha) as [He _].
    assert (Hev : evs = [ev]).
    { destruct He; try (destruct Hin; fail); destruct Hin as [<-|[]]; reflexivity. }
    subst evs. exists i, now, pick, c, t', pc'. auto.
  - exfalso. cbn [qstep] in Hin. destruct (nth_error (q_calls s) i); destruct Hin.
Qed.
End Proofs.
