(** Lemmas about what happens to a row in overlapping calls. *)
From Coq Require Import Permutation Sorted.
From Verif Require Import Base Chrono Types TypesProofs Query QueryProofs Memory MemSpec MemProofs
  MemInv MemWake PgRow PgQuery Pg PgSpec PgProofs PgQueryProofs PgOps PgHist PgConc PgConcSpec PgConcProofs.

Section Hist.
Variable ident : option Z -> option string -> list status -> Z.

Definition waits (r : row) : Prop := r_status r = "scheduled"%string \/ r_status r = "retryable"%string.

Lemma pg_ready_waits now ex r : pg_ready now ex r = true -> waits r /\ r_executor r = ex.
Proof.
  unfold pg_ready, waits. rewrite !andb_true_iff, orb_true_iff, !String.eqb_eq. tauto.
Qed.

(** What one step does to the row [id], seen from the trace. *)
Inductive fate (id : Z) (s s' : qstate) : list qevent -> Prop :=
| ft_same evs : find_row id (t_rows (q_tbl s')) = find_row id (t_rows (q_tbl s)) ->
    (forall i o b a, In (QvWrite i o b a) evs -> r_id b <> id) ->
    (forall i r, In (QvInsert i r) evs -> r_id r <> id) ->
    (forall ev, In ev evs -> ~ deletes id ev) -> fate id s s' evs
| ft_new i r now key e : find_row id (t_rows (q_tbl s)) = None -> find_row id (t_rows (q_tbl s')) = Some r ->
    r = new_row now id key e -> fate id s s' [QvInsert i r]
| ft_write i c b a res : nth_error (q_calls s) i = Some c ->
    find_row id (t_rows (q_tbl s)) = Some b -> find_row id (t_rows (q_tbl s')) = Some a -> r_id a = id ->
    row_change (qc_op c) res b a -> purpose_change (qc_op c) b a ->
    (forall ex, qc_op c = OpLoad ex -> exists now, qc_pc c = QHeld now id /\ pg_ready now ex b = true /\ pg_take now b = Some a) ->
    fate id s s' [QvWrite i (qc_op c) b a]
| ft_gone i l : find_row id (t_rows (q_tbl s')) = None -> In id (map r_id l) -> fate id s s' [QvDelete i l].

Lemma step_fate id s l : qinv s -> fate id s (fst (qstep ident s l)) (snd (qstep ident s l)).
Proof.
  intro Hinv. pose proof (iv_nodup s Hinv) as Hn.
  destruct (snd (qstep ident s l)) as [|ev evs] eqn:Eev.
  - apply ft_same; try (intros; contradiction). destruct l as [o|i now pick|i er].
    + reflexivity.
    + destruct (nth_error (q_calls s) i) as [c|] eqn:Hc; [|cbn [qstep]; rewrite Hc; reflexivity].
      destruct (qstep_run ident s i now pick c Hc) as [t' [pc' [ev [Ha E]]]]. rewrite E in *. cbn in Eev. subst ev. cbn.
      destruct (action_effect ident i now pick _ _ c t' pc' [] Hn (iv_stands s Hinv i c Hc) Ha) as [He _].
      inversion He; reflexivity.
    + cbn [qstep]. destruct (nth_error (q_calls s) i); reflexivity.
  - assert (Hin : In ev (snd (qstep ident s l))) by (rewrite Eev; left; reflexivity).
    destruct (step_event ident s l ev Hinv Hin) as [i [now [pick [c [t' [pc' [-> [Hc [He [Es Ef]]]]]]]]]].
    rewrite Eev in Es. injection Es as ->. rewrite Ef. clear Eev Hin Ef. cbn [q_tbl].
    inversion He as [pc1 E1 E2 E3 E4 E5|now0 e Eo E1 E2 E3 E4|now0 id0 key e Eo Epc E2 E3 E4
      |pre b a post res Hrows Hlk Hida Hch Hpu Hld Htg E2 E3 E4|ps now0 taken Eo Epc E2 E3 E4]; subst; cbn [t_rows].
    + destruct (Z.eq_dec id0 id) as [->|Hne].
      * assert (Hd : drawn c id) by (exists now0; assumption). destruct (iv_drawn s Hinv i c id Hc Hd) as [_ Hno].
        pose proof (iv_nodup _ (step_inv ident s (QRun i now pick) Hinv)) as Hn'.
        apply ft_new with (now := now0) (key := key) (e := e); [apply find_row_none; exact Hno| |reflexivity]. cbn [q_tbl t_rows].
        unfold find_row. clear -Hno. induction (t_rows (q_tbl s)) as [|x rows IH]; cbn.
        -- rewrite Z.eqb_refl. reflexivity.
        -- destruct (Z.eqb_spec (r_id x) id) as [E|E]; [destruct Hno; left; exact E|]. apply IH. intro H. apply Hno. right. exact H.
      * apply ft_same.
        -- apply find_row_app. exact Hne.
        -- intros ? ? ? ? [H|[]]. discriminate.
        -- intros ? r [H|[]]. injection H as _ <-. exact Hne.
        -- intros ev [<-|[]] H. exact H.
    + destruct (Z.eq_dec (r_id b) id) as [E|Hne].
      * rewrite Hrows in Hn. subst id. apply ft_write with (res := res); try assumption.
        -- rewrite Hrows. apply find_row_mid; [exact Hn|reflexivity].
        -- apply find_row_mid; assumption.
        -- intros ex Hex. destruct (Hld ex Hex) as [began [Hpc Ht]]. exists began. split; [exact Hpc|]. split; [|exact Ht].
           destruct c as [o pc]. cbn in Hex, Hpc. subst o pc. destruct (iv_ready s Hinv i ex began (r_id b) Hc) as [r [Hf Hr]].
           rewrite Hrows, (find_row_mid pre b b post Hn eq_refl) in Hf. injection Hf as <-. exact Hr.
      * apply ft_same.
        -- cbn [q_tbl t_rows]. rewrite Hrows. apply find_row_other; [assumption|congruence].
        -- intros ? ? ? ? [Hx|[]]. injection Hx as _ _ <- _. exact Hne.
        -- intros ? ? [Hx|[]]. discriminate.
        -- intros ev [<-|[]] Hx. exact Hx.
    + assert (Hex : existsb (Z.eqb id) taken = true -> In id taken).
      { intro Hx. apply existsb_exists in Hx. destruct Hx as [x [Hx E]]. apply Z.eqb_eq in E. congruence. }
      destruct (existsb (Z.eqb id) taken) eqn:Et.
      * assert (Hp : In id (map r_id (t_rows (q_tbl s)))).
        { eapply (iv_locked s Hinv); [exact Hc|]. unfold row_locks. rewrite Epc. apply Hex. reflexivity. }
        apply ft_gone.
        -- apply find_row_none. cbn [q_tbl t_rows]. intro Hi. apply in_map_iff in Hi. destruct Hi as [r [E Hi]].
           apply filter_In in Hi. destruct Hi as [_ Hi]. rewrite E, Et in Hi. discriminate.
        -- apply in_map_iff in Hp. destruct Hp as [r [E Hi]]. apply in_map_iff. exists r. split; [exact E|]. apply filter_In.
           split; [exact Hi|]. rewrite E. exact Et.
      * apply ft_same.
        -- apply find_row_filter. intros r _ E. rewrite E, Et. reflexivity.
        -- intros ? ? ? ? [Hx|[]]. discriminate.
        -- intros ? ? [Hx|[]]. discriminate.
        -- intros ev [<-|[]] Hx. cbn in Hx. apply in_map_iff in Hx. destruct Hx as [r [E Hx]].
           apply filter_In in Hx. destruct Hx as [_ Hx]. rewrite E, Et in Hx. discriminate.
Qed.

(** * Exclusive hand-out *)

(** The row cannot be handed out: it does not wait, or it is gone for good. *)
Definition shut (id : Z) (s : qstate) : Prop :=
  (exists r, find_row id (t_rows (q_tbl s)) = Some r /\ ~ waits r)
  \/ (find_row id (t_rows (q_tbl s)) = None /\ id < t_next (q_tbl s)
      /\ forall i c, nth_error (q_calls s) i = Some c -> ~ drawn c id).

Lemma find_row_below s id r : qinv s -> find_row id (t_rows (q_tbl s)) = Some r ->
  id < t_next (q_tbl s) /\ forall i c, nth_error (q_calls s) i = Some c -> ~ drawn c id.
Proof.
  intros Hinv H. apply find_row_some in H. destruct H as [Hi <-]. split; [apply (iv_below s Hinv r Hi)|].
  intros i c Hc Hd. destruct (iv_drawn s Hinv i c _ Hc Hd) as [_ Hno]. apply Hno. apply in_map, Hi.
Qed.

(** An id that was given out and is not drawn is never drawn again. *)
Lemma undrawn_step s l id : qinv s -> id < t_next (q_tbl s) ->
  (forall i c, nth_error (q_calls s) i = Some c -> ~ drawn c id) ->
  id < t_next (q_tbl (fst (qstep ident s l)))
  /\ forall i c, nth_error (q_calls (fst (qstep ident s l))) i = Some c -> ~ drawn c id.
Proof.
  intros Hinv Hb Hd. destruct l as [o|i now pick|i er].
  - cbn [qstep fst q_tbl q_calls]. split; [exact Hb|]. intros k c Hk. apply nth_snoc in Hk. destruct Hk as [Hk| ->]; [eauto|].
    intros [now H]. discriminate.
  - destruct (nth_error (q_calls s) i) as [c|] eqn:Hc; [|cbn [qstep]; rewrite Hc; split; assumption].
    destruct (qstep_run ident s i now pick c Hc) as [t' [pc' [ev [Ha ->]]]]. cbn [fst q_tbl q_calls].
    destruct (action_effect ident i now pick _ _ c t' pc' ev (iv_nodup s Hinv) (iv_stands s Hinv i c Hc) Ha) as [He _].
    split; [destruct He; cbn; lia|]. intros k d Hk. apply nth_set in Hk. destruct Hk as [[-> [-> _]]|[_ Hk]]; [|eauto].
    intros [n Hn]. cbn in Hn. destruct He; try discriminate Hn.
    + apply (Hd i c Hc). exists n. auto.
    + injection Hn as _ <-. lia.
  - cbn [qstep]. destruct (nth_error (q_calls s) i) as [c|] eqn:Hc; [|split; assumption]. cbn [fst q_tbl q_calls]. split; [exact Hb|].
    destruct (gives_up_done er c) as [r ->].
    intros k d Hk. apply nth_set in Hk. destruct Hk as [[-> [-> _]]|[_ Hk]]; [intros [n Hn]; discriminate|eauto].
Qed.

Lemma shut_step s l id : qinv s -> shut id s ->
  (exists ev, In ev (snd (qstep ident s l)) /\ frees id ev)
  \/ (shut id (fst (qstep ident s l)) /\ forall ev, In ev (snd (qstep ident s l)) -> ~ takes id ev).
Proof.
  intros Hinv Hs. pose proof (step_fate id s l Hinv) as Hf.
  assert (Hd : id < t_next (q_tbl s) /\ forall i c, nth_error (q_calls s) i = Some c -> ~ drawn c id).
  { destruct Hs as [[r [H _]]|[_ H]]; [eapply find_row_below; eauto|exact H]. }
  destruct Hd as [Hd1 Hd2]. pose proof (undrawn_step s l id Hinv Hd1 Hd2) as Hd'.
  pose proof (step_inv ident s l Hinv) as Hinv'.
  destruct (qstep ident s l) as [s' evs] eqn:Est. cbn [fst snd] in *.
  destruct Hf as [evs Hsame Hw Hi Hde|i r now key e Hn Hsm Hr|i c b a res Hc Hb Ha Hid Hch Hpc Hl|i rows Hno Hin].
  - right. split.
    + unfold shut. rewrite Hsame. destruct Hs as [H|[H _]]; [left; exact H|right; split; [exact H|exact Hd']].
    + intros [i r|i o b a|i rows] Hin Ht; cbn in Ht; try contradiction. destruct o; try contradiction. exact (Hw _ _ _ _ Hin Ht).
  - (* a new row: the id would have been drawn *)
    exfalso. assert (Hev : In (QvInsert i r) (snd (qstep ident s l))) by (rewrite Est; left; reflexivity).
    destruct (step_event ident s l _ Hinv Hev) as [i' [now' [pick [c [t' [pc' [_ [Hc [He _]]]]]]]]].
    assert (Eid : r_id r = id) by (rewrite Hr; reflexivity).
    inversion He as [| |now0 id0 key0 e0 Eo Epc E2 E3 E4| |]. apply (Hd2 i' c Hc). exists now0. rewrite Epc. f_equal.
    match goal with Hx : _ = r |- _ => rewrite <- Eid, <- Hx end. reflexivity.
  - destruct Hs as [[r [Hr Hnw]]|[Hr _]]; [|congruence]. assert (r = b) by congruence. subst r.
    assert (Hbid : r_id b = id) by (apply find_row_some in Hb; tauto).
    destruct (qc_op c) eqn:Eo; cbn [row_change] in Hch; try contradiction.
    + right. split; [|intros ev [<-|[]] []]. left. exists a. split; [exact Ha|]. unfold waits in *. destruct Hch as [-> _]. exact Hnw.
    + exfalso. destruct (Hl _ eq_refl) as [now [_ [Hrd _]]]. apply pg_ready_waits in Hrd. tauto.
    + right. split; [|intros ev [<-|[]] []]. left. exists a. split; [exact Ha|]. unfold waits. destruct Hch as [_ [_ [-> _]]]. intros [H|H]; discriminate.
    + left. eexists. split; [left; reflexivity|]. cbn. destruct Hch as [Hx _]. split; congruence.
    + right. split; [|intros ev [<-|[]] []]. left. exists a. split; [exact Ha|]. unfold waits. destruct Hch as [_ [_ [-> _]]]. intros [H|H]; discriminate.
    + right. split; [|intros ev [<-|[]] []]. left. exists a. split; [exact Ha|]. unfold waits. destruct Hch as [_ [_ [-> _]]]. intros [H|H]; discriminate.
    + left. eexists. split; [left; reflexivity|]. cbn. destruct Hch as [Hx _]. split; congruence.
    + left. eexists. split; [left; reflexivity|]. cbn. destruct Hch as [Hx _]. split; congruence.
    + right. split; [|intros ev [<-|[]] []]. left. exists a. split; [exact Ha|]. unfold waits in *. destruct Hch as [_ [_ [-> _]]]. exact Hnw.
  - right. split; [|intros ev [<-|[]] []]. right. split; [exact Hno|exact Hd'].
Qed.

(** Between the steps of a trace. *)
Lemma trace_split ls : forall s A ev B, qtrace ident s ls = A ++ ev :: B -> qinv s ->
  exists l1 l l2, ls = l1 ++ l :: l2 /\ qtrace ident s l1 = A /\ snd (qstep ident (qrun ident s l1) l) = [ev]
    /\ qtrace ident (fst (qstep ident (qrun ident s l1) l)) l2 = B.
Proof.
  induction ls as [|l ls IH]; intros s A ev B H Hinv; cbn [qtrace] in H; [destruct A; discriminate|].
  destruct (snd (qstep ident s l)) as [|e evs] eqn:E.
  - destruct (IH _ A ev B H (step_inv ident s l Hinv)) as [l1 [l0 [l2 [-> [H1 [H2 H3]]]]]].
    exists (l :: l1), l0, l2. split; [reflexivity|]. cbn [qtrace qrun]. rewrite E. auto.
  - assert (Hin : In e (snd (qstep ident s l))) by (rewrite E; left; reflexivity).
    destruct (step_event ident s l e Hinv Hin) as [_ [_ [_ [_ [_ [_ [_ [_ [_ [Es _]]]]]]]]]]. rewrite E in Es.
    injection Es as ->. cbn [app] in H. destruct A as [|a A]; cbn [app] in H.
    + injection H as -> H. exists [], l, ls. cbn [qtrace qrun app]. auto.
    + injection H as -> H. destruct (IH _ A ev B H (step_inv ident s l Hinv)) as [l1 [l0 [l2 [-> [H1 [H2 H3]]]]]].
      exists (l :: l1), l0, l2. split; [reflexivity|]. cbn [qtrace qrun]. rewrite E, H1. auto.
Qed.

Lemma shut_run ls : forall s id, qinv s -> shut id s ->
  (exists A ev B, qtrace ident s ls = A ++ ev :: B /\ frees id ev /\ (forall x, In x A -> ~ takes id x))
  \/ (forall ev, In ev (qtrace ident s ls) -> ~ takes id ev).
Proof.
  induction ls as [|l ls IH]; intros s id Hinv Hs; cbn [qtrace]; [right; intros ev []|].
  destruct (shut_step s l id Hinv Hs) as [[ev [Hin Hf]]|[Hs' Hno]].
  - left. destruct (step_event ident s l ev Hinv Hin) as [_ [_ [_ [_ [_ [_ [_ [_ [_ [Es _]]]]]]]]]]. rewrite Es.
    exists [], ev, (qtrace ident (fst (qstep ident s l)) ls). cbn. auto.
  - destruct (IH _ id (step_inv ident s l Hinv) Hs') as [[A [ev [B [-> [Hf Ha]]]]]|H].
    + left. exists (snd (qstep ident s l) ++ A), ev, B. rewrite <- app_assoc. split; [reflexivity|]. split; [exact Hf|].
      intros x Hx. apply in_app_or in Hx. destruct Hx; auto.
    + right. intros ev Hx. apply in_app_or in Hx. destruct Hx; auto.
Qed.

Lemma takes_shuts s l id ev : qinv s -> snd (qstep ident s l) = [ev] -> takes id ev -> shut id (fst (qstep ident s l)).
Proof.
  intros Hinv E Ht. pose proof (step_fate id s l Hinv) as Hf. rewrite E in Hf.
  inversion Hf as [evs Hsame Hw Hi Hde Eq|i r now key e Hn Hsm Hr Eq|i c b a res Hc Hb Ha Hid Hch Hpc Hl Eq|i rows Hno Hin Eq]; subst.
  - exfalso. destruct ev as [|i o b a|]; cbn in Ht; try contradiction. destruct o; try contradiction.
    eapply Hw; [left; reflexivity|exact Ht].
  - destruct Ht.
  - cbn in Ht. destruct (qc_op c); try contradiction. left. exists a. split; [exact Ha|]. cbn in Hch. unfold waits.
    destruct Hch as [-> _]. intros [H|H]; discriminate.
  - destruct Ht.
Qed.

Lemma exclusive t ls id A e1 B e2 C : sound_table t -> qtrace ident (opened t) ls = A ++ e1 :: B ++ e2 :: C ->
  takes id e1 -> takes id e2 -> exists ev, In ev B /\ frees id ev.
Proof.
  intros Ht E T1 T2. apply inv_opened in Ht.
  destruct (trace_split ls _ A e1 _ E Ht) as [l1 [l [l2 [-> [H1 [H2 H3]]]]]].
  set (s := qrun ident (opened t) l1) in *. assert (Hs : qinv s) by (apply run_inv; exact Ht).
  pose proof (takes_shuts s l id e1 Hs H2 T1) as Hshut. pose proof (step_inv ident s l Hs) as Hs'.
  destruct (trace_split l2 _ B e2 C H3 Hs') as [l3 [l4 [l5 [-> [H4 [H5 H6]]]]]].
  rewrite <- H4.
  assert (Hnow : forall ls0 s0, qinv s0 -> shut id s0 -> (forall ev, In ev (qtrace ident s0 ls0) -> ~ frees id ev) -> shut id (qrun ident s0 ls0)).
  { induction ls0 as [|x ls0 IH]; intros s0 I0 Sh Hno; cbn [qrun]; [exact Sh|]. apply IH.
    - apply step_inv, I0.
    - destruct (shut_step s0 x id I0 Sh) as [[ev [Hin Hf]]|[Hx _]]; [|exact Hx].
      destruct (Hno ev); [cbn [qtrace]; apply in_or_app; left; exact Hin|exact Hf].
    - intros ev Hin. apply Hno. cbn [qtrace]. apply in_or_app. right. exact Hin. }
  assert (Hdec : (exists ev, In ev (qtrace ident (fst (qstep ident s l)) l3) /\ frees id ev)
                 \/ (forall ev, In ev (qtrace ident (fst (qstep ident s l)) l3) -> ~ frees id ev)).
  { generalize (qtrace ident (fst (qstep ident s l)) l3). intro l0.
    assert (Hd : forall ev, frees id ev \/ ~ frees id ev).
    { intros [i r|i o b a|i rows]; cbn; try tauto. destruct o; try tauto; destruct (Z.eq_dec id0 id), (Z.eq_dec (r_id b) id); tauto. }
    induction l0 as [|x l0 [[ev [Hin Hf]]|IH]]; [right; intros ev []|left; exists ev; split; [right; exact Hin|exact Hf]|].
    destruct (Hd x) as [Hx|Hx]; [left; exists x; split; [left; reflexivity|exact Hx]|]. right. intros ev [<-|Hin]; auto. }
  destruct Hdec as [H|Hno]; [exact H|]. exfalso.
  pose proof (Hnow l3 _ Hs' Hshut Hno) as Hsh2. pose proof (run_inv ident l3 _ Hs') as Hinv2.
  destruct (shut_step _ l4 id Hinv2 Hsh2) as [[ev [Hin Hf]]|[_ Hx]].
  - rewrite H5 in Hin. destruct Hin as [<-|[]]. destruct e2 as [|i o b a|]; cbn in T2, Hf; try contradiction. destruct o; contradiction.
  - apply (Hx e2); [rewrite H5; left; reflexivity|exact T2].
Qed.

(** * Hand-outs are right *)

Lemma take_right t ls i now pick ex b a : sound_table t ->
  let s := qrun ident (opened t) ls in
  In (QvWrite i (OpLoad ex) b a) (snd (qstep ident s (QRun i now pick))) ->
  exists began, nth_error (q_calls s) i = Some (mk_qcall (OpLoad ex) (QHeld began (r_id b)))
    /\ In b (t_rows (q_tbl s)) /\ pg_ready began ex b = true /\ pg_take began b = Some a
    /\ exists pre post, t_rows (q_tbl s) = pre ++ b :: post
         /\ fst (qstep ident s (QRun i now pick)) =
            mk_q (mk_tbl (pre ++ a :: post) (t_next (q_tbl s)))
                 (set_nth i (mk_qcall (OpLoad ex)
                    (QDone (RJob match job_of_row a with Ok j => Ok (Some j) | Err e => Err e | Panic => Panic end))) (q_calls s)).
Proof.
  intros Ht s Hin. assert (Hinv : qinv s) by (apply run_inv, inv_opened, Ht).
  destruct (step_event ident s _ _ Hinv Hin) as [i' [now' [pick' [c [t' [pc' [El [Hc [He [Es Ef]]]]]]]]]].
  injection El as <- <- <-. inversion He as [| | |pre b' a' post res Hrows Hlk Hid Hch Hpc Hl Htg Eq1 Eq2 Eq3|]; subst.
  match goal with H : QvWrite _ _ _ _ = QvWrite _ _ _ _ |- _ => idtac | H : _ = OpLoad ex |- _ => idtac end.
  destruct c as [o pc]. cbn [qc_op qc_pc] in *.
  destruct (Hl ex) as [began [Epc Etake]]; [assumption|]. subst pc.
  assert (Eo : o = OpLoad ex) by assumption. subst o.
  exists began. split; [exact Hc|]. split; [rewrite Hrows; apply in_or_app; right; left; reflexivity|].
  destruct (iv_ready s Hinv i ex began (r_id b) Hc) as [r [Hf Hr]].
  pose proof (iv_nodup s Hinv) as Hn. rewrite Hrows in Hf, Hn. rewrite (find_row_mid pre b b post Hn eq_refl) in Hf. injection Hf as <-.
  split; [exact Hr|]. split; [exact Etake|]. exists pre, post. split; [exact Hrows|]. rewrite Ef.
  cbn in Hch. destruct Hch as [_ [_ [_ Hres]]].
  destruct Hres as [[j [Hj ->]]|[Hno [er ->]]].
  - apply represents_iff in Hj. rewrite Hj. reflexivity.
  - (* the error is that of the conversion *)
    cbn [qstep] in Ef. rewrite Hc in Ef. unfold action in Ef. cbn [qc_op qc_pc load_action] in Ef.
    rewrite Hrows in Ef. rewrite (find_row_mid pre b b post Hn eq_refl), (update_rows_one pre b post _ a Etake Hn), Etake in Ef.
    cbn [fst] in Ef. rewrite <- Ef. reflexivity.
Qed.

(** * Rows stay *)

Lemma stays_step s l id : qinv s -> In id (map r_id (t_rows (q_tbl s))) ->
  (exists ev, In ev (snd (qstep ident s l)) /\ deletes id ev)
  \/ In id (map r_id (t_rows (q_tbl (fst (qstep ident s l))))).
Proof.
  intros Hinv Hin. pose proof (step_fate id s l Hinv) as Hf.
  destruct (qstep ident s l) as [s' evs]. cbn [fst snd] in *.
  destruct Hf as [evs Hsame Hw Hi Hde|i r now key e Hn Hsm Hr|i c b a res Hc Hb Ha Hid Hch Hpc Hl|i rows Hno Hx].
  - right. apply find_row_present. rewrite Hsame. apply find_row_present. exact Hin.
  - right. apply find_row_present. eauto.
  - right. apply find_row_present. eauto.
  - left. eexists. split; [left; reflexivity|exact Hx].
Qed.

Lemma stays ls : forall s id, qinv s -> In id (map r_id (t_rows (q_tbl s))) ->
  (exists ev, In ev (qtrace ident s ls) /\ deletes id ev) \/ In id (map r_id (t_rows (q_tbl (qrun ident s ls)))).
Proof.
  induction ls as [|l ls IH]; intros s id Hinv Hin; cbn [qtrace qrun]; [right; exact Hin|].
  destruct (stays_step s l id Hinv Hin) as [[ev [H1 H2]]|H].
  - left. exists ev. split; [apply in_or_app; left; exact H1|exact H2].
  - destruct (IH _ id (step_inv ident s l Hinv) H) as [[ev [H1 H2]]|H'].
    + left. exists ev. split; [apply in_or_app; right; exact H1|exact H2].
    + right. exact H'.
Qed.

(** * New ids *)

Lemma insert_step s l i r : qinv s -> snd (qstep ident s l) = [QvInsert i r] ->
  exists c e key now, nth_error (q_calls s) i = Some c /\ qc_op c = OpEnqueue e /\ drawn c (r_id r)
    /\ r = new_row now (r_id r) key e
    /\ In r (t_rows (q_tbl (fst (qstep ident s l))))
    /\ finished (fst (qstep ident s l)) i (OpEnqueue e) (RId (Ok (r_id r))).
Proof.
  intros Hinv E. assert (Hin : In (QvInsert i r) (snd (qstep ident s l))) by (rewrite E; left; reflexivity).
  destruct (step_event ident s l _ Hinv Hin) as [i' [now [pick [c [t' [pc' [-> [Hc [He [_ Ef]]]]]]]]]].
  inversion He; subst. exists c, e, key, now0. split; [exact Hc|]. split; [assumption|]. split; [eexists; cbn; eassumption|].
  split; [reflexivity|]. rewrite Ef. cbn [q_tbl t_rows]. split; [apply in_or_app; right; left; reflexivity|].
  unfold finished. cbn [q_calls]. rewrite set_nth_nth, Nat.eqb_refl, Hc. match goal with Hx : qc_op c = _ |- _ => rewrite Hx end. reflexivity.
Qed.

(** Ids inserted later were not in use and not below the bound before. *)
Definition fresh_for (s : qstate) (id : Z) : Prop :=
  t_next (q_tbl s) <= id \/ exists i c, nth_error (q_calls s) i = Some c /\ drawn c id.
Lemma not_fresh s id : qinv s -> In id (map r_id (t_rows (q_tbl s))) -> ~ fresh_for s id.
Proof.
  intros Hinv Hi [H|[i [c [Hc Hd]]]].
  - apply in_map_iff in Hi. destruct Hi as [r [<- Hi]]. pose proof (iv_below s Hinv r Hi). lia.
  - destruct (iv_drawn s Hinv i c id Hc Hd) as [_ Hno]. contradiction.
Qed.
Lemma fresh_back s l id : qinv s -> fresh_for (fst (qstep ident s l)) id -> fresh_for s id.
Proof.
  intros Hinv Hf. destruct (Z.lt_ge_cases id (t_next (q_tbl s))) as [Hlt|Hge]; [|left; exact Hge].
  assert (Hd : (exists i c, nth_error (q_calls s) i = Some c /\ drawn c id) \/ (forall i c, nth_error (q_calls s) i = Some c -> ~ drawn c id)).
  { clear. assert (Hdec : forall c, drawn c id \/ ~ drawn c id).
    { intros [o pc]. unfold drawn. cbn. destruct pc; try (right; intros [n H]; discriminate).
      destruct (Z.eq_dec id0 id) as [->|H]; [left; eauto|right; intros [n E]; injection E as _ ->; contradiction]. }
    induction (q_calls s) as [|x l IH]; [right; intros [|i] c H; discriminate|].
    destruct (Hdec x) as [Hx|Hx]; [left; exists O, x; auto|]. destruct IH as [[i [c [H1 H2]]]|IH].
    - left. exists (S i), c. auto.
    - right. intros [|i] c H; [injection H as <-; exact Hx|eapply IH; exact H]. }
  destruct Hd as [Hd|Hd]; [right; exact Hd|]. exfalso.
  destruct (undrawn_step s l id Hinv Hlt Hd) as [H1 H2]. destruct Hf as [H|[i [c [Hc Hx]]]]; [lia|]. exact (H2 i c Hc Hx).
Qed.

Lemma inserts_fresh ls : forall s, qinv s ->
  NoDup (map r_id (inserts (qtrace ident s ls)))
  /\ (forall r, In r (inserts (qtrace ident s ls)) -> fresh_for s (r_id r)).
Proof.
  induction ls as [|l ls IH]; intros s Hinv; cbn [qtrace]; [split; [constructor|intros r []]|].
  destruct (IH _ (step_inv ident s l Hinv)) as [IH1 IH2].
  destruct (snd (qstep ident s l)) as [|ev evs] eqn:E.
  - cbn [app]. split; [exact IH1|]. intros r Hr. apply (fresh_back s l); [exact Hinv|]. auto.
  - assert (Hin : In ev (snd (qstep ident s l))) by (rewrite E; left; reflexivity).
    destruct (step_event ident s l ev Hinv Hin) as [_ [_ [_ [_ [_ [_ [_ [_ [_ [Es _]]]]]]]]]]. rewrite E in Es. injection Es as ->.
    unfold inserts in *. cbn [app flat_map].
    destruct ev as [i r|i o b a|i rows]; cbn [app]; try (split; [exact IH1|]; intros r0 Hr; apply (fresh_back s l); [exact Hinv|]; auto; fail).
    destruct (insert_step s l i r Hinv E) as [c [e [key [now [Hc [_ [Hd [_ [Hi _]]]]]]]]]. split.
    + cbn [map]. constructor; [|exact IH1]. intro Hx. apply in_map_iff in Hx. destruct Hx as [r' [E' Hr']]. apply IH2 in Hr'.
      rewrite E' in Hr'. revert Hr'. apply not_fresh; [apply step_inv; exact Hinv|]. apply in_map, Hi.
    + intros r0 [<-|Hr]; [right; eauto|]. apply (fresh_back s l); [exact Hinv|]. auto.
Qed.
(** * Accounting *)

Lemma gone_step s l id : qinv s -> id < t_next (q_tbl s) ->
  (forall i c, nth_error (q_calls s) i = Some c -> ~ drawn c id) -> find_row id (t_rows (q_tbl s)) = None ->
  find_row id (t_rows (q_tbl (fst (qstep ident s l)))) = None.
Proof.
  intros Hinv Hb Hd Hn. pose proof (step_fate id s l Hinv) as Hf.
  destruct (qstep ident s l) as [s' evs] eqn:Est. cbn [fst snd] in *.
  destruct Hf as [evs Hsame Hw Hi Hde|i r now key e Hn' Hsm Hr|i c b a res Hc Hbb Ha Hid Hch Hpc Hl|i rows Hno Hx].
  - congruence.
  - exfalso. assert (Hev : In (QvInsert i r) (snd (qstep ident s l))) by (rewrite Est; left; reflexivity).
    destruct (step_event ident s l _ Hinv Hev) as [i' [now' [pick [c [t' [pc' [_ [Hc [He _]]]]]]]]].
    assert (Eid : r_id r = id) by (rewrite Hr; reflexivity).
    inversion He as [| |now0 id0 key0 e0 Eo Epc E2 E3 E4| |]. apply (Hd i' c Hc). exists now0. rewrite Epc. f_equal.
    match goal with Hx : _ = r |- _ => rewrite <- Eid, <- Hx end. reflexivity.
  - congruence.
  - exact Hno.
Qed.
Lemma gone_run ls : forall s id, qinv s -> id < t_next (q_tbl s) ->
  (forall i c, nth_error (q_calls s) i = Some c -> ~ drawn c id) -> find_row id (t_rows (q_tbl s)) = None ->
  find_row id (t_rows (q_tbl (qrun ident s ls))) = None.
Proof.
  induction ls as [|l ls IH]; intros s id Hinv Hb Hd Hn; cbn [qrun]; [exact Hn|].
  destruct (undrawn_step s l id Hinv Hb Hd) as [H1 H2].
  apply IH; [apply step_inv; exact Hinv|exact H1|exact H2|]. apply gone_step; assumption.
Qed.

Definition noted (se : stored_error) : Z * string := (se_attempt se, se_details se).

Lemma account_step s l id b a : qinv s -> find_row id (t_rows (q_tbl s)) = Some b ->
  find_row id (t_rows (q_tbl (fst (qstep ident s l)))) = Some a ->
  r_attempt a = r_attempt b + total (map (attempts_made id) (snd (qstep ident s l)))
  /\ exists new, r_errors a = r_errors b ++ new /\ map noted new = flat_map (failures id) (snd (qstep ident s l)).
Proof.
  intros Hinv Hb Ha. pose proof (step_fate id s l Hinv) as Hf.
  destruct (qstep ident s l) as [s' evs] eqn:Est. cbn [fst snd] in *.
  assert (Hbid : r_id b = id) by (apply find_row_some in Hb; tauto).
  destruct Hf as [evs Hsame Hw Hi Hde|i r now key e Hn' Hsm Hr|i c b' a' res Hc Hbb Haa Hid Hch Hpc Hl|i rows Hno Hx].
  - assert (a = b) as -> by congruence.
    assert (H : Forall (fun ev => attempts_made id ev = 0 /\ failures id ev = []) evs).
    { apply Forall_forall. intros [i r|i o b0 a|i rows] Hin; cbn; try (split; reflexivity).
      pose proof (Hw _ _ _ _ Hin) as Hne. destruct (Z.eq_dec (r_id b0) id); [contradiction|]. destruct o; split; reflexivity. }
    clear -H. assert (total (map (attempts_made id) evs) = 0 /\ flat_map (failures id) evs = []) as [E1 E2].
    { induction H as [|ev evs [H1 H2] _ [IH1 IH2]]; [split; reflexivity|]. cbn. rewrite H1, H2. unfold total in IH1. rewrite IH1, IH2. split; reflexivity. }
    rewrite E1, E2. split; [lia|]. exists []. rewrite app_nil_r. split; reflexivity.
  - congruence.
  - assert (b' = b) as -> by congruence. assert (a' = a) as -> by congruence.
    cbn [map flat_map total fold_right]. unfold attempts_made, failures. rewrite Hbid.
    destruct (Z.eq_dec id id) as [_|N]; [|contradiction].
    destruct (qc_op c); cbn [row_change] in Hch; try contradiction.
    + destruct Hch as [_ [-> [-> _]]]. split; [lia|]. exists []. rewrite app_nil_r. split; reflexivity.
    + destruct Hch as [_ [-> [-> _]]]. split; [lia|]. exists []. rewrite app_nil_r. split; reflexivity.
    + destruct Hch as [_ [_ [_ [-> ->]]]]. split; [lia|]. exists []. rewrite app_nil_r. split; reflexivity.
    + destruct Hch as [_ [_ [_ [-> [se [-> [H1 H2]]]]]]]. split; [lia|]. exists [se]. split; [reflexivity|]. cbn. unfold noted. rewrite H1, H2. reflexivity.
    + destruct Hch as [_ [_ [_ [-> [se [-> [H1 H2]]]]]]]. split; [lia|]. exists [se]. split; [reflexivity|]. cbn. unfold noted. rewrite H1, H2. reflexivity.
    + destruct Hch as [_ [_ [_ [-> [se [-> [H1 H2]]]]]]]. split; [lia|]. exists [se]. split; [reflexivity|]. cbn. unfold noted. rewrite H1, H2. reflexivity.
    + destruct Hch as [_ [_ [_ [-> ->]]]]. split; [lia|]. exists []. rewrite app_nil_r. split; reflexivity.
    + destruct Hch as [_ [_ [_ [-> ->]]]]. split; [lia|]. exists []. rewrite app_nil_r. split; reflexivity.
    + destruct Hch as [_ [_ [_ [-> ->]]]]. split; [lia|]. exists []. rewrite app_nil_r. split; reflexivity.
  - congruence.
Qed.

Lemma total_app l1 l2 : total (l1 ++ l2) = total l1 + total l2.
Proof. unfold total. induction l1 as [|x l1 IH]; cbn [app fold_right]; lia. Qed.

Lemma account ls : forall s id b a, qinv s -> find_row id (t_rows (q_tbl s)) = Some b ->
  find_row id (t_rows (q_tbl (qrun ident s ls))) = Some a ->
  r_attempt a = r_attempt b + total (map (attempts_made id) (qtrace ident s ls))
  /\ exists new, r_errors a = r_errors b ++ new /\ map noted new = flat_map (failures id) (qtrace ident s ls).
Proof.
  induction ls as [|l ls IH]; intros s id b a Hinv Hb Ha; cbn [qrun qtrace] in *.
  - assert (a = b) as -> by congruence. cbn. split; [lia|]. exists []. rewrite app_nil_r. split; reflexivity.
  - destruct (find_row id (t_rows (q_tbl (fst (qstep ident s l))))) as [m|] eqn:Em.
    + destruct (account_step s l id b m Hinv Hb Em) as [A1 [n1 [E1 N1]]].
      destruct (IH _ id m a (step_inv ident s l Hinv) Em Ha) as [A2 [n2 [E2 N2]]].
      rewrite map_app, total_app, flat_map_app. split; [lia|]. exists (n1 ++ n2). rewrite E2, E1, <- app_assoc, map_app, N1, N2.
      split; reflexivity.
    + exfalso. destruct (find_row_below s id b Hinv Hb) as [H1 H2]. destruct (undrawn_step s l id Hinv H1 H2) as [H3 H4].
      rewrite (gone_run ls _ id (step_inv ident s l Hinv) H3 H4 Em) in Ha. discriminate.
Qed.

(** The rest of a row is what it was inserted with, updates and replacements aside. *)
Definition edits (id : Z) (ev : qevent) : Prop :=
  match ev with QvWrite _ (OpUpdate _ | OpEnqueue _) b _ => r_id b = id | _ => False end.

Lemma purpose_step s l id b a : qinv s -> find_row id (t_rows (q_tbl s)) = Some b ->
  find_row id (t_rows (q_tbl (fst (qstep ident s l)))) = Some a ->
  (exists ev, In ev (snd (qstep ident s l)) /\ edits id ev) \/
  (same_purpose b a /\ r_executor a = r_executor b /\ r_inserted_at a = r_inserted_at b /\ r_uniqueness_key a = r_uniqueness_key b).
Proof.
  intros Hinv Hb Ha. pose proof (step_fate id s l Hinv) as Hf.
  destruct (qstep ident s l) as [s' evs] eqn:Est. cbn [fst snd] in *.
  assert (Hbid : r_id b = id) by (apply find_row_some in Hb; tauto).
  destruct Hf as [evs Hsame Hw Hi Hde|i r now key e Hn' Hsm Hr|i c b' a' res Hc Hbb Haa Hid Hch Hpc Hl|i rows Hno Hx].
  - assert (a = b) as -> by congruence. right. repeat split.
  - congruence.
  - assert (b' = b) as -> by congruence. assert (a' = a) as -> by congruence. destruct Hpc as [H1 [H2 [H3 H4]]].
    destruct (qc_op c) eqn:Eo; try (right; auto; fail); left; eexists; (split; [left; reflexivity|exact Hbid]).
  - congruence.
Qed.
End Hist.
