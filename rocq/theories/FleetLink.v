(** How the tasks of a fleet and the database belong together. *)
From Coq Require Import Lia Permutation.
From Verif Require Import Base Chrono Types Query Memory MemSpec MemConc MemWake PgRow PgQuery Pg PgConc PgConcProofs PgListen PgListenProofs Codec Builder
  Runner RunnerSpec WorkerProofs Ticker Pruner ApiProofs App AppSpec AppProofs World WorldSpec WorldProofs Fleet FleetSpec.

Definition has_taken (v : view) : list job := match v_worker v with Some (_, js) => js | None => [] end.
Definition has_due (v : view) : list mop := map snd (v_owed v).

Record flinked (V : list view) (St : list (option nat)) (A : list ask) (C : list mop) (N : list (nat * string))
  (Y : nat -> list job) (G : list job) (O : list mop) : Prop := mk_flinked {
  f_len : length St = length V;
  f_worker : forall i v name js, nth_error V i = Some v -> v_worker v = Some (name, js) ->
    exists k, nth_error St i = Some (Some k) /\ nth_error N k = Some (v_backend v, name) /\ Y k = js;
  f_loop : forall i v, nth_error V i = Some v -> v_worker v = None -> nth_error St i = Some None;
  f_inj : forall i i' k, nth_error St i = Some (Some k) -> nth_error St i' = Some (Some k) -> i = i';
  f_all : forall k, (k < length N)%nat -> exists i, nth_error St i = Some (Some k);
  f_asks : forall i v, nth_error V i = Some v ->
    map (fun a => (ak_turn a, nth_error C (ak_call a))) (filter (fun a => Nat.eqb (ak_task a) i) A)
    = map (fun x => (fst x, Some (snd x))) (v_owed v);
  f_task : forall a, In a A -> (ak_task a < length V)%nat /\ (ak_call a < length C)%nat;
  f_once : forall n1 n2 a1 a2, nth_error A n1 = Some a1 -> nth_error A n2 = Some a2 -> ak_call a1 = ak_call a2 -> n1 = n2;
  f_given : Permutation G (flat_map has_taken V);
  f_calls : Permutation (filter callable C) (O ++ flat_map has_due V)
}.

Lemma flinked_init : flinked [] [] [] [] [] (fun _ => []) [] [].
Proof.
  constructor; cbn; auto.
  - intros i v name js H. destruct i; discriminate.
  - intros i v H. destruct i; discriminate.
  - intros i i' k H. destruct i; discriminate.
  - intros k H. lia.
  - intros i v H. destruct i; discriminate.
  - intros a [].
  - intros n1 n2 a1 a2 H. destruct n1; discriminate.
Qed.

Lemma nth_app_cases {A} (l : list A) x i y : nth_error (l ++ [x]) i = Some y ->
  (nth_error l i = Some y /\ (i < length l)%nat) \/ (i = length l /\ y = x).
Proof.
  intro H. destruct (Nat.lt_ge_cases i (length l)) as [Hl|Hl].
  - rewrite nth_error_app1 in H by exact Hl. auto.
  - rewrite nth_error_app2 in H by exact Hl. right. destruct (i - length l)%nat as [|d] eqn:E; [|destruct d; discriminate].
    injection H as <-. split; [lia|reflexivity].
Qed.
Lemma nth_app_last {A} (l : list A) x : nth_error (l ++ [x]) (length l) = Some x.
Proof. rewrite nth_error_app2 by lia. now rewrite Nat.sub_diag. Qed.
Lemma nth_app_old {A} (l l' : list A) i x : nth_error l i = Some x -> nth_error (l ++ l') i = Some x.
Proof. intro H. rewrite nth_error_app1; [exact H|eapply nth_lt; exact H]. Qed.

(** More calls that are no task's. *)
Lemma flinked_more V St A C N Y G O C' : filter callable C' = [] ->
  flinked V St A C N Y G O -> flinked V St A (C ++ C') N Y G O.
Proof.
  intros Hc [J1 J2 J3 J4 J5 J6 J7 J8 J9 J10]. constructor; auto.
  - intros i v Hv. rewrite <- (J6 i v Hv). apply map_ext_in. intros a Ha. apply filter_In in Ha. destruct Ha as [Ha _].
    f_equal. apply nth_error_app1. apply (J7 a Ha).
  - intros a Ha. rewrite app_length. destruct (J7 a Ha). split; lia.
  - rewrite filter_app, Hc, app_nil_r. exact J10.
Qed.
Lemma flinked_call V St A C N Y G O o : callable o = true ->
  flinked V St A C N Y G O -> flinked V St A (C ++ [o]) N Y G (O ++ [o]).
Proof.
  intros Hc [J1 J2 J3 J4 J5 J6 J7 J8 J9 J10]. constructor; auto.
  - intros i v Hv. rewrite <- (J6 i v Hv). apply map_ext_in. intros a Ha. apply filter_In in Ha. destruct Ha as [Ha _].
    f_equal. apply nth_error_app1. apply (J7 a Ha).
  - intros a Ha. rewrite app_length. destruct (J7 a Ha). split; lia.
  - rewrite filter_app. cbn [filter]. rewrite Hc, <- app_assoc. etransitivity; [apply Permutation_app_tail, J10|].
    rewrite <- app_assoc. apply Permutation_app_head. apply Permutation_app_comm.
Qed.
Lemma flinked_ext V St A C N Y G O Y' : (forall k, Y' k = Y k) ->
  flinked V St A C N Y G O -> flinked V St A C N Y' G O.
Proof.
  intros HY [J1 J2 J3 J4 J5 J6 J7 J8 J9 J10]. constructor; auto.
  intros i v name js Hv Hw. destruct (J2 i v name js Hv Hw) as [k [K1 [K2 K3]]]. exists k. rewrite HY. auto.
Qed.

Lemma no_asks V A (Ht : forall a, In a A -> (ak_task a < length V)%nat /\ True) :
  filter (fun a => Nat.eqb (ak_task a) (@length view V)) A = [].
Proof.
  assert (H : forall a, In a A -> Nat.eqb (ak_task a) (length V) = false).
  { intros a Ha. apply Nat.eqb_neq. destruct (Ht a Ha). lia. }
  clear Ht. induction A as [|a A IH]; [reflexivity|]. cbn. rewrite (H a (or_introl eq_refl)). apply IH. intros x Hx. apply H. right. exact Hx.
Qed.

Lemma flinked_spawn_worker V St A C N Y G O b name : Y (length N) = [] ->
  flinked V St A C N Y G O ->
  flinked (V ++ [mk_view b (Some (name, [])) []]) (St ++ [Some (length N)]) A C (N ++ [(b, name)]) Y G O.
Proof.
  intros HY [J1 J2 J3 J4 J5 J6 J7 J8 J9 J10].
  assert (Hk : forall i k, nth_error St i = Some (Some k) -> (k < length N)%nat).
  { intros i k Hs. destruct (nth_error V i) as [v|] eqn:Ev.
    - destruct (v_worker v) as [[nm js]|] eqn:Ew.
      + destruct (J2 i v nm js Ev Ew) as [k' [K1 [K2 _]]]. assert (k' = k) as -> by congruence. eapply nth_lt; exact K2.
      + rewrite (J3 i v Ev Ew) in Hs. discriminate.
    - exfalso. apply nth_error_None in Ev. apply nth_lt in Hs. lia. }
  constructor.
  - rewrite !app_length. cbn. lia.
  - intros i v nm js Hv Hw. destruct (nth_app_cases _ _ _ _ Hv) as [[Hv' Hl]|[-> ->]].
    + destruct (J2 i v nm js Hv' Hw) as [k [K1 [K2 K3]]]. exists k. split; [apply nth_app_old; exact K1|]. split; [apply nth_app_old; exact K2|exact K3].
    + cbn in Hw. injection Hw as <- <-. exists (length N). rewrite <- J1. split; [apply nth_app_last|]. split; [apply nth_app_last|exact HY].
  - intros i v Hv Hw. destruct (nth_app_cases _ _ _ _ Hv) as [[Hv' Hl]|[-> ->]]; [|discriminate]. apply nth_app_old. eauto.
  - intros i i' k H H'. destruct (nth_app_cases _ _ _ _ H) as [[H1 _]|[H1 H2]], (nth_app_cases _ _ _ _ H') as [[H1' _]|[H1' H2']].
    + eauto.
    + exfalso. injection H2' as ->. apply Hk in H1. lia.
    + exfalso. injection H2 as ->. apply Hk in H1'. lia.
    + congruence.
  - intros k H. rewrite app_length in H. cbn in H. destruct (Nat.eq_dec k (length N)) as [->|Hne].
    + exists (length St). apply nth_app_last.
    + destruct (J5 k ltac:(lia)) as [i Hi]. exists i. apply nth_app_old. exact Hi.
  - intros i v Hv. destruct (nth_app_cases _ _ _ _ Hv) as [[Hv' Hl]|[-> ->]]; [auto|].
    rewrite no_asks; [reflexivity|]. intros a Ha. split; [apply (J7 a Ha)|exact Logic.I].
  - intros a Ha. rewrite app_length. destruct (J7 a Ha). split; lia.
  - exact J8.
  - rewrite flat_map_app. cbn. rewrite app_nil_r. exact J9.
  - rewrite flat_map_app. cbn. rewrite app_nil_r. exact J10.
Qed.

Lemma flinked_spawn_loop V St A C N Y G O b :
  flinked V St A C N Y G O -> flinked (V ++ [mk_view b None []]) (St ++ [None]) A C N Y G O.
Proof.
  intros [J1 J2 J3 J4 J5 J6 J7 J8 J9 J10]. constructor.
  - rewrite !app_length. cbn. lia.
  - intros i v nm js Hv Hw. destruct (nth_app_cases _ _ _ _ Hv) as [[Hv' Hl]|[-> ->]]; [|discriminate].
    destruct (J2 i v nm js Hv' Hw) as [k [K1 [K2 K3]]]. exists k. split; [apply nth_app_old; exact K1|auto].
  - intros i v Hv Hw. destruct (nth_app_cases _ _ _ _ Hv) as [[Hv' Hl]|[-> ->]]; [apply nth_app_old; eauto|].
    rewrite <- J1. apply nth_app_last.
  - intros i i' k H H'. destruct (nth_app_cases _ _ _ _ H) as [[H1 _]|[_ H1]]; [|discriminate].
    destruct (nth_app_cases _ _ _ _ H') as [[H1' _]|[_ H1']]; [eauto|discriminate].
  - intros k H. destruct (J5 k H) as [i Hi]. exists i. apply nth_app_old. exact Hi.
  - intros i v Hv. destruct (nth_app_cases _ _ _ _ Hv) as [[Hv' Hl]|[-> ->]]; [auto|].
    rewrite no_asks; [reflexivity|]. intros a Ha. split; [apply (J7 a Ha)|exact Logic.I].
  - intros a Ha. rewrite app_length. destruct (J7 a Ha). split; lia.
  - exact J8.
  - rewrite flat_map_app. cbn. rewrite app_nil_r. exact J9.
  - rewrite flat_map_app. cbn. rewrite app_nil_r. exact J10.
Qed.

(** A worker takes the job its stream gives. *)
Lemma flinked_take V St A C N Y G O i v name js k j Y' :
  nth_error V i = Some v -> v_worker v = Some (name, js) -> nth_error St i = Some (Some k) ->
  (forall k', Y' k' = Y k' ++ (if Nat.eqb k k' then [j] else [])) ->
  flinked V St A C N Y G O ->
  flinked (set_nth i (mk_view (v_backend v) (Some (name, js ++ [j])) (v_owed v)) V) St A C N Y' (G ++ [j]) O.
Proof.
  intros Hi Hw Hs HY [J1 J2 J3 J4 J5 J6 J7 J8 J9 J10].
  set (v1 := mk_view (v_backend v) (Some (name, js ++ [j])) (v_owed v)).
  constructor; rewrite ?set_nth_length; auto.
  - intros i' u nm js' Hu Hwu. destruct (nth_set_cases _ _ _ _ _ Hu) as [[-> [-> _]]|[Hne Hu']].
    + cbn in Hwu. injection Hwu as <- <-. destruct (J2 i v name js Hi Hw) as [k' [K1 [K2 K3]]].
      assert (k' = k) as -> by congruence. exists k. rewrite HY, Nat.eqb_refl, K3. auto.
    + destruct (J2 i' u nm js' Hu' Hwu) as [k' [K1 [K2 K3]]]. exists k'. rewrite HY.
      destruct (Nat.eqb_spec k k') as [<-|]; [exfalso; apply Hne; eauto|]. rewrite app_nil_r. auto.
  - intros i' u Hu Hwu. destruct (nth_set_cases _ _ _ _ _ Hu) as [[-> [-> _]]|[Hne Hu']]; [discriminate|eauto].
  - intros i' u Hu. destruct (nth_set_cases _ _ _ _ _ Hu) as [[-> [-> _]]|[Hne Hu']]; [exact (J6 i v Hi)|auto].
  - symmetry. etransitivity; [eapply flat_set_nth with (z := [j]); [exact Hi|]|].
    + unfold has_taken. cbn [v1 v_worker]. rewrite Hw. reflexivity.
    + apply Permutation_app_tail. symmetry. exact J9.
  - etransitivity; [exact J10|]. apply Permutation_app_head. symmetry.
    etransitivity; [eapply flat_set_nth with (z := []); [exact Hi|]|now rewrite app_nil_r].
    unfold has_due. cbn [v1 v_owed]. now rewrite app_nil_r.
Qed.

(** A task makes a call. *)
Lemma flinked_ask V St A C N Y G O i v n o : nth_error V i = Some v -> callable o = true ->
  flinked V St A C N Y G O ->
  flinked (set_nth i (mk_view (v_backend v) (v_worker v) (v_owed v ++ [(n, o)])) V) St (A ++ [mk_ask i n (length C)]) (C ++ [o]) N Y G O.
Proof.
  intros Hi Ho [J1 J2 J3 J4 J5 J6 J7 J8 J9 J10].
  set (v1 := mk_view (v_backend v) (v_worker v) (v_owed v ++ [(n, o)])). set (a0 := mk_ask i n (length C)).
  constructor; rewrite ?set_nth_length; auto.
  - intros i' u nm js' Hu Hwu. destruct (nth_set_cases _ _ _ _ _ Hu) as [[-> [-> _]]|[Hne Hu']]; [exact (J2 i v nm js' Hi Hwu)|eauto].
  - intros i' u Hu Hwu. destruct (nth_set_cases _ _ _ _ _ Hu) as [[-> [-> _]]|[Hne Hu']]; [exact (J3 i v Hi Hwu)|eauto].
  - assert (Hold : forall i' u, nth_error V i' = Some u ->
      map (fun a => (ak_turn a, nth_error (C ++ [o]) (ak_call a))) (filter (fun a => Nat.eqb (ak_task a) i') A) = map (fun x => (fst x, Some (snd x))) (v_owed u)).
    { intros i' u Hu. rewrite <- (J6 i' u Hu). apply map_ext_in. intros a Ha. apply filter_In in Ha. destruct Ha as [Ha _].
      f_equal. apply nth_error_app1. apply (J7 a Ha). }
    intros i' u Hu. rewrite filter_app, map_app. destruct (nth_set_cases _ _ _ _ _ Hu) as [[-> [-> _]]|[Hne Hu']].
    + rewrite (Hold i v Hi). cbn [v1 v_owed]. rewrite map_app. f_equal. cbn. rewrite Nat.eqb_refl. cbn.
      rewrite nth_app_last. reflexivity.
    + rewrite (Hold i' u Hu'). cbn. destruct (Nat.eqb_spec i i'); [congruence|]. cbn. apply app_nil_r.
  - intros a Ha. rewrite app_length. apply in_app_or in Ha. destruct Ha as [Ha|[<-|[]]]; [destruct (J7 a Ha); split; lia|].
    cbn. split; [eapply nth_lt; exact Hi|lia].
  - intros n1 n2 a1 a2 H1 H2 E. destruct (nth_app_cases _ _ _ _ H1) as [[H1' _]|[-> ->]], (nth_app_cases _ _ _ _ H2) as [[H2' _]|[-> ->]].
    + eauto.
    + exfalso. cbn in E. destruct (J7 a1 (nth_error_In _ _ H1')). lia.
    + exfalso. cbn in E. destruct (J7 a2 (nth_error_In _ _ H2')). lia.
    + reflexivity.
  - etransitivity; [exact J9|]. symmetry. etransitivity; [eapply flat_set_nth with (z := []); [exact Hi|]|now rewrite app_nil_r].
    unfold has_taken. cbn [v1 v_worker]. now rewrite app_nil_r.
  - rewrite filter_app. cbn [filter]. rewrite Ho. etransitivity; [apply Permutation_app_tail, J10|]. rewrite <- app_assoc.
    apply Permutation_app_head. symmetry. eapply flat_set_nth; [exact Hi|]. unfold has_due. cbn [v1 v_owed]. apply map_app.
Qed.

(** * What a label does to the database and the streams *)
Definition ops (s : nstate) : list mop := map qc_op (q_calls (n_db s)).
Definition names (s : nstate) : list (nat * string) := map (fun st => (s_client st, s_executor st)) (n_streams s).

Section Net.
Variable ident : option Z -> option string -> list status -> Z.

Lemma yields_app k a b : yields k (a ++ b) = yields k a ++ yields k b.
Proof. apply flat_map_app. Qed.
Lemma yielded_app a b : yielded (a ++ b) = yielded a ++ yielded b.
Proof. apply flat_map_app. Qed.
Lemma yields_db k evs : yields k (map NvDb evs) = [].
Proof. unfold yields. induction evs; auto. Qed.
Lemma yielded_db evs : yielded (map NvDb evs) = [].
Proof. unfold yielded. induction evs; auto. Qed.

Lemma qstep_ops s l : map qc_op (q_calls (fst (qstep ident s l))) = map qc_op (q_calls s) ++ match l with QCall o => [o] | _ => [] end.
Proof.
  destruct l as [o|i now pick|i e]; cbn [qstep].
  - cbn. rewrite map_app. reflexivity.
  - rewrite app_nil_r. destruct (nth_error (q_calls s) i) as [c|] eqn:E; [|reflexivity].
    destruct (PgConc.action ident i now pick (q_calls s) (q_tbl s) c) as [[t' pc'] ev]. cbn. eapply map_set_nth; [exact E|reflexivity].
  - rewrite app_nil_r. destruct (nth_error (q_calls s) i) as [c|] eqn:E; [|reflexivity]. cbn. eapply map_set_nth; [exact E|reflexivity].
Qed.

(** Everything but a call, a subscription and a step of a stream. *)
Lemma net_quiet s l : (forall o, l <> NDb (QCall o)) -> (forall c ex, l <> NSubscribe c ex) -> (forall k now, l <> NStream k now) ->
  ops (fst (nstep ident s l)) = ops s /\ names (fst (nstep ident s l)) = names s
  /\ (forall k, yields k (snd (nstep ident s l)) = []) /\ yielded (snd (nstep ident s l)) = [].
Proof.
  intros H1 H2 H3. unfold ops, names. destruct l as [q| |c|c|c|c ex|k now|k|k]; cbn [nstep].
  - unfold db_step. pose proof (qstep_ops (n_db s) q) as Ho. destruct (qstep ident (n_db s) q) as [db evs].
    cbn [fst snd n_db n_streams q_calls] in *. rewrite Ho.
    split; [destruct q; [exfalso; eapply H1; reflexivity|apply app_nil_r..]|]. split; [reflexivity|]. split; [intro; apply yields_db|apply yielded_db].
  - auto.
  - destruct (nth_error (n_clients s) c) as [[[] [|n rest]]|]; auto. destruct (note_readable n); cbn [fst snd n_db n_streams]; auto.
    split; [reflexivity|]. split; [|auto]. rewrite map_map. apply map_ext. intro st. destruct (pass_on_phase c n st) as [_ [-> ->]]. reflexivity.
  - destruct (nth_error (n_clients s) c); auto.
  - destruct (nth_error (n_clients s) c); auto.
  - exfalso. eapply H2. reflexivity.
  - exfalso. eapply H3. reflexivity.
  - destruct (nth_error (n_streams s) k) as [[c ex [|m q] ph]|] eqn:E; auto. destruct ph; auto. cbn [fst snd n_db n_streams].
    split; [reflexivity|]. split; [eapply map_set_nth; [exact E|reflexivity]|auto].
  - destruct (nth_error (n_streams s) k) as [[c ex q ph]|] eqn:E; auto. destruct ph; auto. cbn [fst snd n_db n_streams].
    split; [reflexivity|]. split; [eapply map_set_nth; [exact E|reflexivity]|auto].
Qed.

Lemma net_call s o : ops (fst (nstep ident s (NDb (QCall o)))) = ops s ++ [o] /\ names (fst (nstep ident s (NDb (QCall o)))) = names s
  /\ snd (nstep ident s (NDb (QCall o))) = [].
Proof. unfold ops, names. cbn. rewrite map_app. auto. Qed.

Lemma net_subscribe s c ex : (c < length (n_clients s))%nat ->
  ops (fst (nstep ident s (NSubscribe c ex))) = ops s /\ names (fst (nstep ident s (NSubscribe c ex))) = names s ++ [(c, ex)]
  /\ snd (nstep ident s (NSubscribe c ex)) = [].
Proof.
  intro H. unfold ops, names. cbn [nstep]. destruct (nth_error (n_clients s) c) as [cl|] eqn:E.
  - cbn. rewrite map_app. auto.
  - exfalso. apply nth_error_None in E. lia.
Qed.

(** A step of a stream. *)
Lemma net_stream s k now st : nth_error (n_streams s) k = Some st ->
  exists st' more, nth_error (n_streams (fst (nstep ident s (NStream k now)))) k = Some st'
    /\ ops (fst (nstep ident s (NStream k now))) = ops s ++ more /\ filter callable more = []
    /\ names (fst (nstep ident s (NStream k now))) = names s
    /\ match s_phase st' with
       | PYield (Ok j) => exists i, snd (nstep ident s (NStream k now)) = [NvYield k i j]
       | _ => snd (nstep ident s (NStream k now)) = []
       end.
Proof.
  intro H. unfold ops, names. cbn [nstep]. rewrite H. destruct (pstream_step now (n_db s) k st) as [[ph call] evs] eqn:E.
  exists (set_phase ph st), (match call with Some o => [o] | None => [] end). cbn [fst snd n_db n_streams].
  split; [eapply nth_set_same; exact H|]. split.
  { destruct call as [o|]; [|now rewrite app_nil_r]. cbn. now rewrite map_app. }
  unfold pstream_step in E.
  split.
  { destruct (s_phase st); try (injection E as <- <- <-; reflexivity).
    destruct (nth_error (q_calls (n_db s)) i) as [[o []]|]; try (injection E as <- <- <-; reflexivity).
    destruct (load_item r) as [[]|]; injection E as <- <- <-; reflexivity. }
  split; [eapply map_set_nth; [exact H|reflexivity]|]. cbn [s_phase set_phase].
  destruct (s_phase st) as [|t|t rd d|t rd d i|t rd d|t rd sl d|r] eqn:Ep; try (injection E as <- <- <-).
  - destruct (pg_next_available _ _); reflexivity.
  - destruct (_ <=? pg_delta); reflexivity.
  - reflexivity.
  - destruct (nth_error (q_calls (n_db s)) i) as [[o pc]|]; [|injection E as <- <- <-; reflexivity].
    destruct pc; try (injection E as <- <- <-; reflexivity).
    destruct (load_item r) as [[]|]; injection E as <- <- <-; try reflexivity. eexists; reflexivity.
  - reflexivity.
  - destruct (_ <=? now); reflexivity.
  - reflexivity.
Qed.

(** Streams that do not exist have given nothing. *)
Lemma yields_none t ls k : (length (names (nrun ident (n_found t) ls)) <= k)%nat -> yields k (ntrace ident (n_found t) ls) = [].
Proof.
  induction ls as [|l ls IH] using rev_ind; intro H; [reflexivity|].
  rewrite ntrace_snoc, yields_app. rewrite nrun_snoc in H. set (s := nrun ident (n_found t) ls) in *.
  assert (Hd : (exists c ex, l = NSubscribe c ex) \/ (exists k' now, l = NStream k' now) \/ (exists o, l = NDb (QCall o))
    \/ ((forall o, l <> NDb (QCall o)) /\ (forall c ex, l <> NSubscribe c ex) /\ (forall k now, l <> NStream k now))).
  { destruct l as [[]| | | | | | | |]; eauto 6; right; right; right; repeat split; discriminate. }
  destruct Hd as [[c [ex ->]]|[[k' [now ->]]|[[o ->]|[N1 [N2 N3]]]]].
  - rewrite IH; [|revert H; unfold names; cbn [nstep]; destruct (nth_error (n_clients s) c); cbn; rewrite ?map_app, ?app_length; lia].
    cbn [nstep]. destruct (nth_error (n_clients s) c); reflexivity.
  - destruct (nth_error (n_streams s) k') as [st|] eqn:E.
    + destruct (net_stream s k' now st E) as [st' [more [E1 [_ [_ [E4 E5]]]]]]. rewrite E4 in H. rewrite IH by exact H.
      destruct (s_phase st') as [| | | | | |[j| |]]; rewrite ?E5; try reflexivity. destruct E5 as [i ->]. cbn.
      destruct (Nat.eqb_spec k' k) as [->|]; [|reflexivity]. exfalso. apply nth_lt in E. unfold names in H. rewrite map_length in H. lia.
    + cbn [nstep] in *. rewrite E in *. rewrite IH by exact H. reflexivity.
  - destruct (net_call s o) as [_ [E2 E3]]. rewrite E2 in H. rewrite E3, IH by exact H. reflexivity.
  - destruct (net_quiet s l N1 N2 N3) as [_ [E2 [E3 _]]]. rewrite E2 in H. rewrite E3, IH by exact H. reflexivity.
Qed.
End Net.
