(** Lemmas about whole programs on in-memory backends. *)
From Coq Require Import Lia Permutation.
From Verif Require Import Base Chrono Types Query Memory MemSpec MemNotify MemConc MemConcSpec MemConcProofs MemConcThms MemWake Codec Builder
  Runner RunnerSpec WorkerProofs Ticker Pruner ApiProofs App AppSpec AppProofs World WorldSpec.

(** * What labels leave behind in a store *)

Definition new_call (l : label) : list mop :=
  match l with
  | LCall (OpLoad _ | OpSubscribe _) => []
  | LCall o => [o]
  | _ => []
  end.
Definition new_sub (l : label) : list string := match l with LSubscribe ex => [ex] | _ => [] end.
Definition calls_of (ls : list label) : list mop := flat_map new_call ls.
Definition names_of (ls : list label) : list string := flat_map new_sub ls.

Lemma map_sub_set_nth k sb : forall l sb0, nth_error l k = Some sb0 -> sub_executor sb = sub_executor sb0 ->
  map sub_executor (set_nth k sb l) = map sub_executor l.
Proof. intros l sb0 H E. eapply map_set_nth; eassumption. Qed.

Lemma grown_names l l' : grown l l' -> map sub_executor l' = map sub_executor l.
Proof.
  unfold grown. intro H. induction H as [|a b l l' [Hex _] _ IH]; [reflexivity|]. cbn. rewrite IH. f_equal. congruence.
Qed.

Lemma call_step_grown p i now m c m' c' ev : (forall ex, cl_op c <> OpSubscribe ex) ->
  call_step p i now m c = (m', c', ev) -> grown (m_subs m) (m_subs m').
Proof.
  intro Hns. unfold call_step. destruct c as [o pc0 cid]. cbn [cl_pc cl_op cl_id] in *.
  assert (Hst : is_enq o = false -> grown (m_subs m) (m_subs (fst (mem_step p now m o))))
    by (intro Ho; exact (proj1 (mem_step_avail p now m o Ho Hns))).
  destruct pc0 as [| |id|id|j|r]; intro H.
  - destruct (is_enq o) eqn:Eo.
    + destruct o as [e| | | | | | | | | | | | |]; try discriminate Eo.
      destruct (eq_criteria e) as [uq|].
      * destruct (matching_jobs _ m) as [[|k rest]|err|]; injection H as <- <- <-; apply grown_refl.
      * injection H as <- <- <-. apply grown_refl.
    + assert (H' : (let (m', r) := mem_step p now m o in
                    (m', mk_call o (PcDone r) cid, [EvApply i now o r])) = (m', c', ev))
        by (destruct o; exact H || discriminate Eo).
      specialize (Hst eq_refl). destruct (mem_step p now m o) as [m1 r]. injection H' as <- <- <-. exact Hst.
  - destruct o; injection H as <- <- <-; apply grown_refl.
  - destruct o as [e| | | | | | | | | | | | |]; try (injection H as <- <- <-; apply grown_refl).
    destruct (m_poisoned m); injection H as <- <- <-; apply grown_refl.
  - destruct o as [e| | | | | | | | | | | | |]; injection H as <- <- <-; try apply grown_refl. apply notify_grown.
  - destruct o as [e| | | | | | | | | | | | |]; try (injection H as <- <- <-; apply grown_refl).
    pose proof (proj1 (mem_step_avail p now m (OpUpdate j) eq_refl ltac:(discriminate))) as G. cbn [mem_step] in G.
    destruct (mem_update m j) as [m1 r]. injection H as <- <- <-. exact G.
  - destruct o; injection H as <- <- <-; apply grown_refl.
Qed.

Lemma stream_step_grown p k now m sb ph m' ph' ev :
  stream_step p k now m sb ph = (m', ph', ev) -> grown (m_subs m) (m_subs m').
Proof.
  unfold stream_step. destruct ph as [|t|t rd d|t rd d|t rd sl d|r|]; intro H;
    try (injection H as <- <- <-; apply grown_refl).
  - destruct (next_available _ m); injection H as <- <- <-; apply grown_refl.
  - pose proof (proj1 (mem_step_avail p now m (OpLoad (sub_executor sb)) eq_refl ltac:(discriminate))) as G. cbn [mem_step] in G.
    destruct (mem_load p now m (sub_executor sb)) as [m1 [[j|]|err|]]; injection H as <- <- <-; exact G.
Qed.

Lemma set_nth_same_map {A B} (f : A -> B) i x l y : nth_error l i = Some y -> f x = f y -> map f (set_nth i x l) = map f l.
Proof. apply map_set_nth. Qed.

(** A step adds what its label says. *)
Lemma store_step p s l : no_sub s -> length (c_streams s) = length (m_subs (c_mem s)) ->
  let s' := fst (conc_step p s l) in
  map cl_op (c_calls s') = map cl_op (c_calls s) ++ new_call l
  /\ map sub_executor (m_subs (c_mem s')) = map sub_executor (m_subs (c_mem s)) ++ new_sub l
  /\ length (c_streams s') = length (m_subs (c_mem s'))
  /\ (forall k j, In (EvHandOut k j) (snd (conc_step p s l)) ->
        nth_error (c_streams s') k = Some (SYield (Ok j)) /\ (k < length (m_subs (c_mem s)))%nat
        /\ (exists now, l = LStream k now) /\ snd (conc_step p s l) = [EvHandOut k j]).
Proof.
  intros Hns Hl. cbn zeta.
  assert (G : forall m', grown (m_subs (c_mem s)) (m_subs m') ->
            map sub_executor (m_subs m') = map sub_executor (m_subs (c_mem s)) /\ length (m_subs m') = length (m_subs (c_mem s))).
  { intros m' Hg. pose proof (grown_names _ _ Hg) as E. split; [exact E|]. rewrite <- (map_length sub_executor (m_subs m')), E. apply map_length. }
  destruct l as [o|i now|ex|k now|k]; cbn [conc_step new_call new_sub].
  - destruct o; cbn [fst snd c_calls c_mem c_streams]; rewrite ?map_app, ?app_nil_r; (split; [reflexivity|]);
      (split; [reflexivity|]); (split; [exact Hl|]); intros k1 j1 [].
  - rewrite !app_nil_r. destruct (nth_error (c_calls s) i) as [c|] eqn:En.
    2:{ cbn. repeat split; auto; destruct H. }
    destruct (call_step p i now (c_mem s) c) as [[m' c'] ev] eqn:Ec. cbn [fst snd c_calls c_mem c_streams].
    pose proof (call_step_op _ _ _ _ _ _ _ _ Ec) as Eo.
    assert (Hg : grown (m_subs (c_mem s)) (m_subs m')).
    { eapply call_step_grown; [|exact Ec]. intros ex He. exact (Hns c ex (nth_error_In _ _ En) He). }
    destruct (G _ Hg) as [G1 G2]. split; [eapply map_set_nth; eassumption|]. split; [exact G1|]. split; [congruence|].
    intros k j Hin. exfalso. clear - Ec Hin. unfold call_step in Ec. destruct c as [o pc0 cid]. cbn in Ec.
    destruct pc0; repeat match type of Ec with
      | (let (_, _) := ?x in _) = _ => destruct x
      | match ?x with _ => _ end = _ => destruct x
      | (if ?x then _ else _) = _ => destruct x
      end; injection Ec as <- <- <-; cbn in Hin; intuition discriminate.
  - cbn [fst snd c_calls c_mem c_streams mem_subscribe set_subs m_subs]. rewrite app_nil_r, map_app, !app_length. cbn.
    split; [reflexivity|]. split; [reflexivity|]. split; [lia|]. intros k j [].
  - rewrite !app_nil_r. destruct (nth_error (c_streams s) k) as [ph|] eqn:Ek.
    2:{ cbn. repeat split; auto; destruct H. }
    destruct (nth_error (m_subs (c_mem s)) k) as [sb|] eqn:Esb.
    2:{ cbn. repeat split; auto; destruct H. }
    destruct (stream_step p k now (c_mem s) sb ph) as [[m' ph'] ev] eqn:Es. cbn [fst snd c_calls c_mem c_streams].
    destruct (G _ (stream_step_grown _ _ _ _ _ _ _ _ _ Es)) as [G1 G2].
    split; [reflexivity|]. split; [exact G1|]. split; [rewrite set_nth_length; congruence|].
    intros k' j Hin. unfold stream_step in Es.
    destruct ph as [|t|t rd d|t rd d|t rd sl d|r|]; try (injection Es as <- <- <-; destruct Hin).
    + destruct (next_available _ (c_mem s)); injection Es as <- <- <-; destruct Hin.
    + destruct (mem_load p now (c_mem s) (sub_executor sb)) as [m1 [[j0|]|err|]]; injection Es as <- <- <-; try destruct Hin.
      * injection H as <- <-. split; [eapply nth_set_same; exact Ek|]. split; [eapply nth_lt; exact Esb|]. eauto.
      * destruct H.
  - rewrite !app_nil_r. assert (Hsame : forall P : Prop, P -> P) by auto.
    assert (Hs0 : map cl_op (c_calls s) = map cl_op (c_calls s) /\ map sub_executor (m_subs (c_mem s)) = map sub_executor (m_subs (c_mem s))
       /\ length (c_streams s) = length (m_subs (c_mem s))
       /\ (forall k0 j, In (EvHandOut k0 j) (@nil cevent) ->
             nth_error (c_streams s) k0 = Some (SYield (Ok j)) /\ (k0 < length (m_subs (c_mem s)))%nat
             /\ (exists now, LRecv k = LStream k0 now) /\ @nil cevent = [EvHandOut k0 j])).
    { repeat split; auto; destruct H. }
    destruct (nth_error (c_streams s) k) as [[| | | |t rd sl d| |]|] eqn:Ek; try exact Hs0.
    destruct (nth_error (m_subs (c_mem s)) k) as [sb|] eqn:Esb; [|exact Hs0].
    destruct (sub_queue sb); [exact Hs0|]. cbn [fst snd c_calls c_mem c_streams set_subs m_subs].
    split; [reflexivity|]. split; [eapply map_set_nth; [exact Esb|reflexivity]|].
    split; [rewrite !set_nth_length; exact Hl|]. intros k0 j [].
Qed.

Lemma no_sub_init : no_sub c_init.
Proof. intros c ex []. Qed.

Lemma store_run p ls : let s := conc_run p c_init ls in
  no_sub s /\ map cl_op (c_calls s) = calls_of ls /\ map sub_executor (m_subs (c_mem s)) = names_of ls
  /\ length (c_streams s) = length (m_subs (c_mem s)).
Proof.
  cbn zeta. induction ls as [|l ls IH] using rev_ind.
  - split; [exact no_sub_init|]. auto.
  - destruct IH as [I1 [I2 [I3 I4]]]. rewrite conc_run_app. cbn [conc_run].
    destruct (store_step p _ l I1 I4) as [H1 [H2 [H3 _]]]. cbn zeta in H1, H2, H3.
    split; [apply no_sub_step; exact I1|].
    rewrite H1, H2, H3, I2, I3. unfold calls_of, names_of. rewrite !flat_map_app. cbn. rewrite !app_nil_r. auto.
Qed.

Lemma handed_app k a b : handed k (a ++ b) = handed k a ++ handed k b.
Proof. apply flat_map_app. Qed.

(** Hand-outs go to existing streams. *)
Lemma handed_none p ls k : (length (names_of ls) <= k)%nat -> handed k (conc_trace p c_init ls) = [].
Proof.
  induction ls as [|l ls IH] using rev_ind; intro H; [reflexivity|].
  rewrite conc_trace_app, handed_app. cbn [conc_trace]. rewrite app_nil_r.
  destruct (store_run p ls) as [I1 [I2 [I3 I4]]].
  destruct (store_step p _ l I1 I4) as [_ [_ [_ H4]]].
  unfold names_of in H. rewrite flat_map_app, app_length in H. fold (names_of ls) in H.
  rewrite IH by lia. cbn [app].
  destruct (handed k (snd (conc_step p (conc_run p c_init ls) l))) as [|j rest] eqn:E; [reflexivity|]. exfalso.
  assert (Hin : In (EvHandOut k j) (snd (conc_step p (conc_run p c_init ls) l))).
  { assert (In j (handed k (snd (conc_step p (conc_run p c_init ls) l)))) as Hj by (rewrite E; left; reflexivity).
    unfold handed in Hj. apply in_flat_map in Hj. destruct Hj as [ev [Hev Hj]]. destruct ev as [k' j'| | |]; try destruct Hj.
    destruct (Nat.eqb_spec k' k) as [->|]; [|destruct Hj]. destruct Hj as [->|[]]. exact Hev. }
  destruct (H4 k j Hin) as [_ [Hk _]]. rewrite <- (map_length sub_executor), I3 in Hk. lia.
Qed.

(** * How tasks and stores belong together *)

(** What counts of a task here: its store; of a worker, the name of its executor and the jobs it has
    taken; the calls it has reason to make. *)
Record view := mk_view { v_backend : nat; v_worker : option (string * list job); v_owed : list (nat * mop) }.

(** What the tasks on store [b] have taken, and the calls they have reason to make. *)
Definition took (b : nat) (v : view) : list job :=
  if Nat.eqb (v_backend v) b then match v_worker v with Some (_, js) => js | None => [] end else [].
Definition owes (b : nat) (v : view) : list mop := if Nat.eqb (v_backend v) b then map snd (v_owed v) else [].

Lemma flat_set_nth {A B} (f : A -> list B) i x y z : forall l, nth_error l i = Some y -> f x = f y ++ z ->
  Permutation (flat_map f (set_nth i x l)) (flat_map f l ++ z).
Proof.
  revert i. intros i l. revert i. induction l as [|a l IH]; intros [|i] H E; cbn in *; try discriminate.
  - injection H as ->. rewrite E, <- !app_assoc. apply Permutation_app_head. apply Permutation_app_comm.
  - rewrite <- app_assoc. apply Permutation_app_head. auto.
Qed.
Lemma given_app a b : given (a ++ b) = given a ++ given b.
Proof. apply flat_map_app. Qed.

(** The calls the program makes. *)
Definition own_calls (l : list mop) : list mop := flat_map (fun o => new_call (LCall o)) l.

Section Links.
  Variable p : profile.

  Record linked (V : list view) (St : list (option nat)) (A : list ask) (L : nat -> list label) (O : nat -> list mop) : Prop := mk_linked {
    j_len : length St = length V;
    j_worker : forall i v name js, nth_error V i = Some v -> v_worker v = Some (name, js) ->
      exists k, nth_error St i = Some (Some k) /\ nth_error (names_of (L (v_backend v))) k = Some name
        /\ handed k (conc_trace p c_init (L (v_backend v))) = js;
    j_loop : forall i v, nth_error V i = Some v -> v_worker v = None -> nth_error St i = Some None;
    j_inj : forall i i' v v' k, nth_error V i = Some v -> nth_error V i' = Some v' -> v_backend v = v_backend v' ->
      nth_error St i = Some (Some k) -> nth_error St i' = Some (Some k) -> i = i';
    j_all : forall b k name, nth_error (names_of (L b)) k = Some name ->
      exists i v js, nth_error V i = Some v /\ v_backend v = b /\ nth_error St i = Some (Some k) /\ v_worker v = Some (name, js);
    j_asks : forall i v, nth_error V i = Some v ->
      map (fun a => (ak_turn a, nth_error (calls_of (L (v_backend v))) (ak_call a))) (filter (fun a => Nat.eqb (ak_task a) i) A)
      = map (fun x => (fst x, Some (snd x))) (v_owed v);
    j_task : forall a, In a A -> exists v, nth_error V (ak_task a) = Some v
      /\ (ak_call a < length (calls_of (L (v_backend v))))%nat;
    j_once : forall n1 n2 a1 a2 v1 v2, nth_error A n1 = Some a1 -> nth_error A n2 = Some a2 ->
      nth_error V (ak_task a1) = Some v1 -> nth_error V (ak_task a2) = Some v2 -> v_backend v1 = v_backend v2 ->
      ak_call a1 = ak_call a2 -> n1 = n2;
    j_rest : forall b c o, nth_error (calls_of (L b)) c = Some o ->
      (exists a v, In a A /\ nth_error V (ak_task a) = Some v /\ v_backend v = b /\ ak_call a = c) \/ In o (O b);
    j_given : forall b, Permutation (given (conc_trace p c_init (L b))) (flat_map (took b) V);
    j_calls : forall b, Permutation (calls_of (L b)) (own_calls (O b) ++ flat_map (owes b) V)
  }.

  Definition upd (L : nat -> list label) (b : nat) (l : label) : nat -> list label :=
    fun b' => if Nat.eqb b b' then L b' ++ [l] else L b'.

  Lemma calls_snoc ls l : calls_of (ls ++ [l]) = calls_of ls ++ new_call l.
  Proof. unfold calls_of. rewrite flat_map_app. cbn. now rewrite app_nil_r. Qed.
  Lemma names_snoc ls l : names_of (ls ++ [l]) = names_of ls ++ new_sub l.
  Proof. unfold names_of. rewrite flat_map_app. cbn. now rewrite app_nil_r. Qed.
  Lemma trace_snoc ls l : conc_trace p c_init (ls ++ [l])
    = conc_trace p c_init ls ++ snd (conc_step p (conc_run p c_init ls) l).
  Proof. rewrite conc_trace_app. cbn [conc_trace]. now rewrite app_nil_r. Qed.

  Lemma linked_init : linked [] [] [] (fun _ => []) (fun _ => []).
  Proof.
    constructor; cbn; auto.
    - intros i v name js H. destruct i; discriminate.
    - intros i v H. destruct i; discriminate.
    - intros i i' v v' k H. destruct i; discriminate.
    - intros b k name H. destruct k; discriminate.
    - intros i v H. destruct i; discriminate.
    - intros a [].
    - intros n1 n2 a1 a2 v1 v2 H. destruct n1; discriminate.
    - intros b c o H. destruct c; discriminate.
  Qed.

  (** Labels that add no stream, no call and no hand-out change nothing. *)
  Lemma linked_same V St A L O L' O' :
    (forall b, names_of (L' b) = names_of (L b)) -> (forall b, calls_of (L' b) = calls_of (L b)) ->
    (forall b k, handed k (conc_trace p c_init (L' b)) = handed k (conc_trace p c_init (L b))) ->
    (forall b, given (conc_trace p c_init (L' b)) = given (conc_trace p c_init (L b))) ->
    (forall b, O' b = O b) ->
    linked V St A L O -> linked V St A L' O'.
  Proof.
    intros Hn Hc Hh Hg Ho [J1 J2 J3 J4 J5 J6 J7 J8 J9 J10 J11]. constructor; auto.
    - intros i v name js Hv Hw. destruct (J2 i v name js Hv Hw) as [k [K1 [K2 K3]]]. exists k. rewrite Hn, Hh. auto.
    - intros b k name H. rewrite Hn in H. auto.
    - intros i v Hv. rewrite Hc. auto.
    - intros a Ha. destruct (J7 a Ha) as [v [K1 K2]]. exists v. rewrite Hc. auto.
    - intros b c o H. rewrite Hc in H. rewrite Ho. destruct (J9 b c o H) as [K|K]; auto.
    - intro b. rewrite Hg. auto.
    - intro b. rewrite Hc, Ho. auto.
  Qed.

  (** The views that count. *)
  Lemma linked_spawn_worker V St A L O b name :
    linked V St A L O ->
    linked (V ++ [mk_view b (Some (name, [])) []]) (St ++ [Some (length (names_of (L b)))]) A (upd L b (LSubscribe name)) O.
  Proof.
    intros [J1 J2 J3 J4 J5 J6 J7 J8 J9 J10 J11].
    assert (Hc : forall b', calls_of (upd L b (LSubscribe name) b') = calls_of (L b')).
    { intro b'. unfold upd. destruct (Nat.eqb b b'); [rewrite calls_snoc; apply app_nil_r|reflexivity]. }
    assert (Hh : forall b' k, handed k (conc_trace p c_init (upd L b (LSubscribe name) b')) = handed k (conc_trace p c_init (L b'))).
    { intros b' k. unfold upd. destruct (Nat.eqb b b'); [rewrite trace_snoc, handed_app; apply app_nil_r|reflexivity]. }
    assert (Hn : forall b', exists x, names_of (upd L b (LSubscribe name) b') = names_of (L b') ++ x).
    { intro b'. unfold upd. destruct (Nat.eqb b b'); [rewrite names_snoc; eauto|exists []; symmetry; apply app_nil_r]. }
    assert (HV : forall i v, nth_error (V ++ [mk_view b (Some (name, [])) []]) i = Some v ->
      (nth_error V i = Some v /\ nth_error (St ++ [Some (length (names_of (L b)))]) i = nth_error St i)
      \/ (i = length V /\ v = mk_view b (Some (name, [])) [] /\ nth_error (St ++ [Some (length (names_of (L b)))]) i = Some (Some (length (names_of (L b)))))).
    { intros i v H. destruct (Nat.lt_ge_cases i (length V)) as [Hl|Hl].
      - rewrite nth_error_app1 in H by exact Hl. left. split; [exact H|]. apply nth_error_app1. congruence.
      - rewrite nth_error_app2 in H by exact Hl. right. assert (i = length V) as ->.
        { destruct (i - length V)%nat as [|d] eqn:E; [lia|]. destruct d; discriminate. }
        rewrite Nat.sub_diag in H. injection H as <-. split; [reflexivity|]. split; [reflexivity|].
        rewrite nth_error_app2 by lia. rewrite J1, Nat.sub_diag. reflexivity. }
    assert (HVl : forall i v, nth_error V i = Some v -> nth_error (V ++ [mk_view b (Some (name, [])) []]) i = Some v).
    { intros i v H. rewrite nth_error_app1; [exact H|eapply nth_lt; exact H]. }
    assert (Hk : forall i v k, nth_error V i = Some v -> nth_error St i = Some (Some k) -> (k < length (names_of (L (v_backend v))))%nat).
    { intros i v k Hv Hs. destruct (v_worker v) as [[nm js]|] eqn:Ew.
      - destruct (J2 i v nm js Hv Ew) as [k' [K1 [K2 _]]]. rewrite Hs in K1. injection K1 as <-. eapply nth_lt; exact K2.
      - rewrite (J3 i v Hv Ew) in Hs. discriminate. }
    constructor.
    - rewrite !app_length. cbn. lia.
    - intros i v nm js Hv Hw. destruct (HV i v Hv) as [[Hv' ->]|[-> [-> ->]]].
      + destruct (J2 i v nm js Hv' Hw) as [k [K1 [K2 K3]]]. exists k. rewrite Hh. split; [exact K1|]. split; [|exact K3].
        destruct (Hn (v_backend v)) as [x ->]. rewrite nth_error_app1; [exact K2|eapply nth_lt; exact K2].
      + cbn in Hw. injection Hw as <- <-. exists (length (names_of (L b))). split; [reflexivity|]. cbn [v_backend]. rewrite Hh.
        split; [|apply handed_none; lia]. unfold upd. rewrite Nat.eqb_refl, names_snoc, nth_error_app2 by lia.
        rewrite Nat.sub_diag. reflexivity.
    - intros i v Hv Hw. destruct (HV i v Hv) as [[Hv' ->]|[-> [-> _]]]; [eauto|discriminate].
    - intros i i' v v' k Hv Hv' Hb Hs Hs'.
      destruct (HV i v Hv) as [[Hv1 E]|[E1 [E2 E]]]; rewrite E in Hs;
        destruct (HV i' v' Hv') as [[Hv1' E']|[E1' [E2' E']]]; rewrite E' in Hs'; [eauto| | |congruence].
      + injection Hs' as <-. pose proof (Hk i v _ Hv1 Hs) as K. subst v'. cbn in Hb. rewrite Hb in K. lia.
      + injection Hs as <-. pose proof (Hk i' v' _ Hv1' Hs') as K. subst v. cbn in Hb. rewrite <- Hb in K. lia.
    - intros b' k nm H. unfold upd in H. destruct (Nat.eqb_spec b b') as [<-|Hne].
      + rewrite names_snoc in H. destruct (Nat.lt_ge_cases k (length (names_of (L b)))) as [Hl|Hl].
        * rewrite nth_error_app1 in H by exact Hl. destruct (J5 b k nm H) as [i [v [js [K1 [K2 [K3 K4]]]]]].
          exists i, v, js. split; [auto|]. split; [exact K2|]. split; [|exact K4].
          rewrite nth_error_app1; [exact K3|eapply nth_lt; exact K3].
        * rewrite nth_error_app2 in H by exact Hl. assert (k = length (names_of (L b))) as ->.
          { destruct (k - length (names_of (L b)))%nat as [|d] eqn:E; [lia|]. destruct d; discriminate. }
          rewrite Nat.sub_diag in H. injection H as <-. exists (length V), (mk_view b (Some (name, [])) []), [].
          split; [rewrite nth_error_app2 by lia; rewrite Nat.sub_diag; reflexivity|]. split; [reflexivity|].
          split; [|reflexivity]. rewrite nth_error_app2 by lia. rewrite J1, Nat.sub_diag. reflexivity.
      + destruct (J5 b' k nm H) as [i [v [js [K1 [K2 [K3 K4]]]]]].
        exists i, v, js. split; [auto|]. split; [exact K2|]. split; [|exact K4].
        rewrite nth_error_app1; [exact K3|eapply nth_lt; exact K3].
    - intros i v Hv. rewrite Hc. destruct (HV i v Hv) as [[Hv' _]|[-> [-> _]]]; [auto|].
      replace (filter (fun a => Nat.eqb (ak_task a) (length V)) A) with (@nil ask); [reflexivity|]. symmetry.
      assert (H : forall a, In a A -> Nat.eqb (ak_task a) (length V) = false).
      { intros a Ha. destruct (J7 a Ha) as [v [Hv1 _]]. apply Nat.eqb_neq. apply nth_lt in Hv1. lia. }
      clear - H. induction A as [|a A IH]; [reflexivity|]. cbn. rewrite (H a (or_introl eq_refl)). apply IH. intros x Hx. apply H. right. exact Hx.
    - intros a Ha. destruct (J7 a Ha) as [v [K1 K2]]. exists v. rewrite Hc. auto.
    - intros n1 n2 a1 a2 v1 v2 H1 H2 Hv1 Hv2.
      destruct (J7 a1 (nth_error_In _ _ H1)) as [u1 [U1 _]], (J7 a2 (nth_error_In _ _ H2)) as [u2 [U2 _]].
      rewrite (HVl _ _ U1) in Hv1. rewrite (HVl _ _ U2) in Hv2. injection Hv1 as <-. injection Hv2 as <-. eauto.
    - intros b' c o H. rewrite Hc in H. destruct (J9 b' c o H) as [[a [v [K1 [K2 K3]]]]|K]; [|auto].
      left. exists a, v. auto.
    - intro b'. rewrite flat_map_app. cbn [flat_map took v_backend v_worker]. unfold took at 2. cbn [v_backend v_worker].
      assert (given (conc_trace p c_init (upd L b (LSubscribe name) b')) = given (conc_trace p c_init (L b'))) as ->.
      { unfold upd. destruct (Nat.eqb b b'); [rewrite trace_snoc, given_app; apply app_nil_r|reflexivity]. }
      destruct (Nat.eqb b b'); cbn; rewrite !app_nil_r; auto.
    - intro b'. rewrite Hc, flat_map_app. cbn [flat_map]. unfold owes at 2. cbn [v_backend v_owed map].
      destruct (Nat.eqb b b'); cbn; rewrite !app_nil_r; auto.
  Qed.

  Lemma linked_spawn_loop V St A L O b :
    linked V St A L O -> linked (V ++ [mk_view b None []]) (St ++ [None]) A L O.
  Proof.
    intros [J1 J2 J3 J4 J5 J6 J7 J8 J9 J10 J11].
    assert (HV : forall i v, nth_error (V ++ [mk_view b None []]) i = Some v ->
      (nth_error V i = Some v /\ nth_error (St ++ [None]) i = nth_error St i)
      \/ (i = length V /\ v = mk_view b None [] /\ nth_error (St ++ [None]) i = Some None)).
    { intros i v H. destruct (Nat.lt_ge_cases i (length V)) as [Hl|Hl].
      - rewrite nth_error_app1 in H by exact Hl. left. split; [exact H|]. apply nth_error_app1. congruence.
      - rewrite nth_error_app2 in H by exact Hl. right. assert (i = length V) as ->.
        { destruct (i - length V)%nat as [|d] eqn:E; [lia|]. destruct d; discriminate. }
        rewrite Nat.sub_diag in H. injection H as <-. split; [reflexivity|]. split; [reflexivity|].
        rewrite nth_error_app2 by lia. rewrite J1, Nat.sub_diag. reflexivity. }
    assert (HVl : forall i v, nth_error V i = Some v -> nth_error (V ++ [mk_view b None []]) i = Some v).
    { intros i v H. rewrite nth_error_app1; [exact H|eapply nth_lt; exact H]. }
    constructor.
    - rewrite !app_length. cbn. lia.
    - intros i v nm js Hv Hw. destruct (HV i v Hv) as [[Hv' ->]|[-> [-> ->]]]; [eauto|discriminate].
    - intros i v Hv Hw. destruct (HV i v Hv) as [[Hv' ->]|[-> [-> H]]]; [eauto|exact H].
    - intros i i' v v' k Hv Hv' Hb Hs Hs'.
      destruct (HV i v Hv) as [[Hv1 E]|[E1 [E2 E]]]; rewrite E in Hs; [|discriminate].
      destruct (HV i' v' Hv') as [[Hv1' E']|[E1' [E2' E']]]; rewrite E' in Hs'; [eauto|discriminate].
    - intros b' k nm H. destruct (J5 b' k nm H) as [i [v [js [K1 [K2 [K3 K4]]]]]].
      exists i, v, js. split; [auto|]. split; [exact K2|]. split; [|exact K4].
      rewrite nth_error_app1; [exact K3|eapply nth_lt; exact K3].
    - intros i v Hv. destruct (HV i v Hv) as [[Hv' _]|[-> [-> _]]]; [auto|].
      replace (filter (fun a => Nat.eqb (ak_task a) (length V)) A) with (@nil ask); [reflexivity|]. symmetry.
      assert (H : forall a, In a A -> Nat.eqb (ak_task a) (length V) = false).
      { intros a Ha. destruct (J7 a Ha) as [v [Hv1 _]]. apply Nat.eqb_neq. apply nth_lt in Hv1. lia. }
      clear - H. induction A as [|a A IH]; [reflexivity|]. cbn. rewrite (H a (or_introl eq_refl)). apply IH. intros x Hx. apply H. right. exact Hx.
    - intros a Ha. destruct (J7 a Ha) as [v [K1 K2]]. exists v. auto.
    - intros n1 n2 a1 a2 v1 v2 H1 H2 Hv1 Hv2.
      destruct (J7 a1 (nth_error_In _ _ H1)) as [u1 [U1 _]], (J7 a2 (nth_error_In _ _ H2)) as [u2 [U2 _]].
      rewrite (HVl _ _ U1) in Hv1. rewrite (HVl _ _ U2) in Hv2. injection Hv1 as <-. injection Hv2 as <-. eauto.
    - intros b' c o H. destruct (J9 b' c o H) as [[a [v [K1 [K2 K3]]]]|K]; [|auto].
      left. exists a, v. auto.
    - intro b'. rewrite flat_map_app. cbn [flat_map]. unfold took at 2. cbn [v_backend v_worker].
      destruct (Nat.eqb b b'); cbn; rewrite !app_nil_r; auto.
    - intro b'. rewrite flat_map_app. cbn [flat_map]. unfold owes at 2. cbn [v_backend v_owed map].
      destruct (Nat.eqb b b'); cbn; rewrite !app_nil_r; auto.
  Qed.

  Lemma nth_set_cases {A} i (x : A) l k y : nth_error (set_nth i x l) k = Some y ->
    (k = i /\ y = x /\ exists z, nth_error l i = Some z) \/ (k <> i /\ nth_error l k = Some y).
  Proof.
    intro H. destruct (Nat.eq_dec k i) as [->|Hne].
    - left. destruct (nth_error l i) as [z|] eqn:E.
      + rewrite (nth_set_same _ _ _ _ E) in H. split; [reflexivity|]. split; [congruence|eauto].
      + exfalso. apply nth_error_None in E. assert (nth_error (set_nth i x l) i <> None) as K by congruence.
        apply nth_error_Some in K. rewrite set_nth_length in K. lia.
    - right. rewrite nth_set_nth_other in H by congruence. auto.
  Qed.

  (** A worker takes the job its stream is given. *)
  Lemma linked_take V St A L O i v name js k j now :
    nth_error V i = Some v -> v_worker v = Some (name, js) -> nth_error St i = Some (Some k) ->
    snd (conc_step p (conc_run p c_init (L (v_backend v))) (LStream k now)) = [EvHandOut k j] ->
    linked V St A L O ->
    linked (set_nth i (mk_view (v_backend v) (Some (name, js ++ [j])) (v_owed v)) V) St A (upd L (v_backend v) (LStream k now)) O.
  Proof.
    intros Hi Hw Hs Hev [J1 J2 J3 J4 J5 J6 J7 J8 J9 J10 J11].
    set (v1 := mk_view (v_backend v) (Some (name, js ++ [j])) (v_owed v)).
    set (L' := upd L (v_backend v) (LStream k now)).
    assert (Hc : forall b', calls_of (L' b') = calls_of (L b')).
    { intro b'. unfold L', upd. destruct (Nat.eqb (v_backend v) b'); [rewrite calls_snoc; apply app_nil_r|reflexivity]. }
    assert (Hn : forall b', names_of (L' b') = names_of (L b')).
    { intro b'. unfold L', upd. destruct (Nat.eqb (v_backend v) b'); [rewrite names_snoc; apply app_nil_r|reflexivity]. }
    assert (Hh : forall b' k', handed k' (conc_trace p c_init (L' b'))
       = handed k' (conc_trace p c_init (L b')) ++ (if Nat.eqb (v_backend v) b' && Nat.eqb k k' then [j] else [])).
    { intros b' k'. unfold L', upd. destruct (Nat.eqb_spec (v_backend v) b') as [<-|Hne]; cbn [andb].
      - rewrite trace_snoc, handed_app, Hev. cbn. now rewrite app_nil_r.
      - now rewrite app_nil_r. }
    assert (HV : forall i' u, nth_error (set_nth i v1 V) i' = Some u ->
       (i' = i /\ u = v1) \/ (i' <> i /\ nth_error V i' = Some u)).
    { intros i' u H. destruct (nth_set_cases _ _ _ _ _ H) as [[K1 [K2 _]]|K]; auto. }
    assert (HV0 : forall i' u, nth_error (set_nth i v1 V) i' = Some u ->
       exists u0, nth_error V i' = Some u0 /\ v_backend u = v_backend u0 /\ v_owed u = v_owed u0 /\ (v_worker u = None -> v_worker u0 = None)).
    { intros i' u H. destruct (HV i' u H) as [[-> ->]|[Hne K]]; [exists v|exists u]; auto. repeat split; auto. discriminate. }
    assert (HVl : forall i' u, nth_error V i' = Some u -> exists u', nth_error (set_nth i v1 V) i' = Some u' /\ v_backend u' = v_backend u).
    { intros i' u H. destruct (Nat.eq_dec i' i) as [->|Hne].
      - exists v1. split; [eapply nth_set_same; exact Hi|]. cbn. congruence.
      - exists u. rewrite nth_set_nth_other by congruence. auto. }
    constructor.
    - rewrite set_nth_length. exact J1.
    - intros i' u nm js' Hu Hwu. rewrite Hn, Hh || (destruct (HV i' u Hu) as [[-> ->]|[Hne Hu']]).
      + cbn in Hwu. injection Hwu as <- <-. destruct (J2 i v name js Hi Hw) as [k' [K1 [K2 K3]]].
        assert (k' = k) as -> by congruence. exists k. cbn [v_backend v1]. rewrite Hn, Hh, !Nat.eqb_refl, K3. auto.
      + destruct (J2 i' u nm js' Hu' Hwu) as [k' [K1 [K2 K3]]]. exists k'. rewrite Hn, Hh. split; [exact K1|]. split; [exact K2|].
        destruct (Nat.eqb_spec (v_backend v) (v_backend u)) as [Eb|]; cbn [andb]; [|now rewrite app_nil_r].
        destruct (Nat.eqb_spec k k') as [<-|]; [|now rewrite app_nil_r].
        exfalso. apply Hne. symmetry. eapply J4; eassumption.
    - intros i' u Hu Hwu. destruct (HV0 i' u Hu) as [u0 [K1 [_ [_ K2]]]]. eauto.
    - intros i1 i2 u1 u2 k' H1 H2 Hb Hs1 Hs2. destruct (HV0 _ _ H1) as [w1 [K1 [E1 _]]], (HV0 _ _ H2) as [w2 [K2 [E2 _]]].
      eapply J4; [exact K1|exact K2|congruence|exact Hs1|exact Hs2].
    - intros b' k' nm H. rewrite Hn in H. destruct (J5 b' k' nm H) as [i' [u [js' [K1 [K2 [K3 K4]]]]]].
      destruct (Nat.eq_dec i' i) as [->|Hne].
      + assert (u = v) as -> by congruence. exists i, v1, (js ++ [j]). split; [eapply nth_set_same; exact Hi|].
        split; [exact K2|]. split; [exact K3|]. cbn. congruence.
      + exists i', u, js'. rewrite nth_set_nth_other by congruence. auto.
    - intros i' u Hu. destruct (HV0 i' u Hu) as [u0 [K1 [K2 [K3 _]]]]. rewrite Hc, K2, K3. auto.
    - intros a Ha. destruct (J7 a Ha) as [u [K1 K2]]. destruct (HVl _ _ K1) as [u' [K3 K4]]. exists u'. rewrite Hc, K4. auto.
    - intros n1 n2 a1 a2 u1 u2 H1 H2 Hu1 Hu2 Hb Hcl.
      destruct (HV0 _ _ Hu1) as [w1 [K1 [E1 _]]], (HV0 _ _ Hu2) as [w2 [K2 [E2 _]]].
      eapply J8; [exact H1|exact H2|exact K1|exact K2|congruence|exact Hcl].
    - intros b' c o H. rewrite Hc in H. destruct (J9 b' c o H) as [[a [u [K1 [K2 [K3 K4]]]]]|K]; [|auto].
      destruct (HVl _ _ K2) as [u' [K5 K6]]. left. exists a, u'. repeat split; auto. congruence.
    - intro b'. assert (given (conc_trace p c_init (L' b')) = given (conc_trace p c_init (L b')) ++ (if Nat.eqb (v_backend v) b' then [j] else [])) as ->.
      { unfold L', upd. destruct (Nat.eqb_spec (v_backend v) b') as [<-|]; [|now rewrite app_nil_r].
        rewrite trace_snoc, given_app, Hev. reflexivity. }
      symmetry. etransitivity; [eapply flat_set_nth with (z := if Nat.eqb (v_backend v) b' then [j] else []); [exact Hi|]|].
      + unfold took. cbn [v1 v_backend v_worker]. rewrite Hw. destruct (Nat.eqb (v_backend v) b'); reflexivity.
      + apply Permutation_app_tail. symmetry. apply J10.
    - intro b'. rewrite Hc. etransitivity; [apply J11|]. apply Permutation_app_head. symmetry.
      etransitivity; [eapply flat_set_nth with (z := []); [exact Hi|]|now rewrite app_nil_r].
      unfold owes. cbn [v1 v_backend v_owed]. now rewrite app_nil_r.
  Qed.

  (** A task makes a call. *)
  Lemma linked_ask V St A L O i v n o :
    nth_error V i = Some v -> new_call (LCall o) = [o] ->
    linked V St A L O ->
    linked (set_nth i (mk_view (v_backend v) (v_worker v) (v_owed v ++ [(n, o)])) V) St
      (A ++ [mk_ask i n (length (calls_of (L (v_backend v))))]) (upd L (v_backend v) (LCall o)) O.
  Proof.
    intros Hi Ho [J1 J2 J3 J4 J5 J6 J7 J8 J9 J10 J11].
    set (v1 := mk_view (v_backend v) (v_worker v) (v_owed v ++ [(n, o)])).
    set (a0 := mk_ask i n (length (calls_of (L (v_backend v))))).
    set (L' := upd L (v_backend v) (LCall o)).
    assert (Hc : forall b', calls_of (L' b') = calls_of (L b') ++ (if Nat.eqb (v_backend v) b' then [o] else [])).
    { intro b'. unfold L', upd. destruct (Nat.eqb (v_backend v) b'); [rewrite calls_snoc, Ho; reflexivity|now rewrite app_nil_r]. }
    assert (Hn : forall b', names_of (L' b') = names_of (L b')).
    { intro b'. unfold L', upd. destruct (Nat.eqb (v_backend v) b'); [rewrite names_snoc; apply app_nil_r|reflexivity]. }
    assert (Hh : forall b' k', handed k' (conc_trace p c_init (L' b')) = handed k' (conc_trace p c_init (L b'))).
    { intros b' k'. unfold L', upd. destruct (Nat.eqb (v_backend v) b'); [|reflexivity].
      rewrite trace_snoc, handed_app. replace (snd (conc_step p _ (LCall o))) with (@nil cevent); [apply app_nil_r|].
      cbn [conc_step]. destruct o; reflexivity. }
    assert (HV0 : forall i' u, nth_error (set_nth i v1 V) i' = Some u ->
       exists u0, nth_error V i' = Some u0 /\ v_backend u = v_backend u0 /\ v_worker u = v_worker u0
         /\ v_owed u = v_owed u0 ++ (if Nat.eqb i i' then [(n, o)] else [])).
    { intros i' u H. destruct (nth_set_cases _ _ _ _ _ H) as [[-> [-> _]]|[Hne K]]; [exists v|exists u]; (split; [assumption|]);
        (split; [reflexivity|]); (split; [reflexivity|]); [rewrite Nat.eqb_refl; reflexivity|].
      destruct (Nat.eqb_spec i i'); [congruence|]. now rewrite app_nil_r. }
    assert (HVl : forall i' u, nth_error V i' = Some u -> exists u', nth_error (set_nth i v1 V) i' = Some u' /\ v_backend u' = v_backend u
        /\ v_worker u' = v_worker u).
    { intros i' u H. destruct (Nat.eq_dec i' i) as [->|Hne].
      - exists v1. split; [eapply nth_set_same; exact Hi|]. cbn. split; congruence.
      - exists u. rewrite nth_set_nth_other by congruence. auto. }
    assert (Hlc : forall c b', (c < length (calls_of (L b')))%nat -> nth_error (calls_of (L' b')) c = nth_error (calls_of (L b')) c).
    { intros c b' H. rewrite Hc. apply nth_error_app1. exact H. }
    constructor.
    - rewrite set_nth_length. exact J1.
    - intros i' u nm js' Hu Hwu. destruct (HV0 i' u Hu) as [u0 [K1 [K2 [K3 _]]]]. rewrite K2, Hn. rewrite K3 in Hwu.
      destruct (J2 i' u0 nm js' K1 Hwu) as [k' [Q1 [Q2 Q3]]]. exists k'. rewrite Hh. auto.
    - intros i' u Hu Hwu. destruct (HV0 i' u Hu) as [u0 [K1 [_ [K2 _]]]]. eapply J3; [exact K1|congruence].
    - intros i1 i2 u1 u2 k' H1 H2 Hb Hs1 Hs2. destruct (HV0 _ _ H1) as [w1 [K1 [E1 _]]], (HV0 _ _ H2) as [w2 [K2 [E2 _]]].
      eapply J4; [exact K1|exact K2|congruence|exact Hs1|exact Hs2].
    - intros b' k' nm H. rewrite Hn in H. destruct (J5 b' k' nm H) as [i' [u [js' [K1 [K2 [K3 K4]]]]]].
      destruct (HVl _ _ K1) as [u' [Q1 [Q2 Q3]]]. exists i', u', js'. repeat split; congruence.
    - intros i' u Hu. destruct (HV0 i' u Hu) as [u0 [K1 [K2 [_ K3]]]]. rewrite K2, K3, filter_app, !map_app.
      f_equal.
      + rewrite <- (J6 i' u0 K1). apply map_ext_in. intros a Ha. apply filter_In in Ha. destruct Ha as [Ha Et].
        apply Nat.eqb_eq in Et. f_equal. destruct (J7 a Ha) as [w [W1 W2]]. rewrite Et in W1. apply Hlc. congruence.
      + cbn. destruct (Nat.eqb_spec i i') as [<-|Hne]; [|reflexivity]. cbn. assert (u0 = v) as -> by congruence.
        rewrite Hc, Nat.eqb_refl, nth_error_app2 by lia. rewrite Nat.sub_diag. reflexivity.
    - intros a Ha. apply in_app_or in Ha. destruct Ha as [Ha|[<-|[]]].
      + destruct (J7 a Ha) as [u [K1 K2]]. destruct (HVl _ _ K1) as [u' [K3 [K4 _]]]. exists u'. rewrite Hc, K4, app_length. split; [exact K3|lia].
      + exists v1. split; [eapply nth_set_same; exact Hi|]. cbn [v_backend v1 ak_call a0]. rewrite Hc, Nat.eqb_refl, app_length. cbn. lia.
    - assert (Hnew : forall n1 a1 u1, nth_error A n1 = Some a1 -> nth_error (set_nth i v1 V) (ak_task a1) = Some u1 ->
         v_backend u1 = v_backend v -> ak_call a1 <> ak_call a0).
      { intros n1 a1 u1 H1 Hu1 Hb E. destruct (HV0 _ _ Hu1) as [w1 [K1 [E1 _]]].
        destruct (J7 a1 (nth_error_In _ _ H1)) as [w [W1 W2]]. assert (w = w1) as -> by congruence.
        rewrite E in W2. cbn in W2. rewrite <- E1, Hb in W2. lia. }
      assert (Hvi : nth_error (set_nth i v1 V) i = Some v1) by (eapply nth_set_same; exact Hi).
      intros n1 n2 a1 a2 u1 u2 H1 H2 Hu1 Hu2 Hb Hcl.
      assert (HA : forall m a, nth_error (A ++ [a0]) m = Some a -> nth_error A m = Some a \/ (m = length A /\ a = a0)).
      { intros m a H. destruct (Nat.lt_ge_cases m (length A)) as [Hl|Hl].
        - rewrite nth_error_app1 in H by exact Hl. auto.
        - rewrite nth_error_app2 in H by exact Hl. right. destruct (m - length A)%nat as [|d] eqn:E; [|destruct d; discriminate].
          injection H as <-. split; [lia|reflexivity]. }
      destruct (HA _ _ H1) as [H1'|[-> ->]], (HA _ _ H2) as [H2'|[-> ->]].
      + destruct (HV0 _ _ Hu1) as [w1 [K1 [E1 _]]], (HV0 _ _ Hu2) as [w2 [K2 [E2 _]]].
        eapply J8; [exact H1'|exact H2'|exact K1|exact K2|congruence|exact Hcl].
      + exfalso. assert (u2 = v1) as -> by (cbn in Hu2; congruence). exact (Hnew _ _ _ H1' Hu1 Hb Hcl).
      + exfalso. assert (u1 = v1) as -> by (cbn in Hu1; congruence). exact (Hnew _ _ _ H2' Hu2 (eq_sym Hb) (eq_sym Hcl)).
      + reflexivity.
    - intros b' c o' H. destruct (Nat.lt_ge_cases c (length (calls_of (L b')))) as [Hl|Hl].
      + rewrite Hlc in H by exact Hl. destruct (J9 b' c o' H) as [[a [u [K1 [K2 [K3 K4]]]]]|K]; [|auto].
        destruct (HVl _ _ K2) as [u' [K5 [K6 _]]]. left. exists a, u'. split; [apply in_or_app; auto|]. repeat split; auto. congruence.
      + left. rewrite Hc in H. rewrite nth_error_app2 in H by exact Hl.
        destruct (Nat.eqb_spec (v_backend v) b') as [<-|]; [|destruct (c - _)%nat; discriminate].
        destruct (c - length (calls_of (L (v_backend v))))%nat as [|d] eqn:E; [|destruct d; discriminate].
        exists a0, v1. split; [apply in_or_app; right; left; reflexivity|].
        split; [eapply nth_set_same; exact Hi|]. split; [reflexivity|]. cbn. lia.
    - intro b'. assert (given (conc_trace p c_init (L' b')) = given (conc_trace p c_init (L b'))) as ->.
      { unfold L', upd. destruct (Nat.eqb (v_backend v) b'); [|reflexivity].
        rewrite trace_snoc, given_app. replace (snd (conc_step p _ (LCall o))) with (@nil cevent); [apply app_nil_r|].
        cbn [conc_step]. destruct o; reflexivity. }
      etransitivity; [apply J10|]. symmetry. etransitivity; [eapply flat_set_nth with (z := []); [exact Hi|]|now rewrite app_nil_r].
      unfold took. cbn [v1 v_backend v_worker]. now rewrite app_nil_r.
    - intro b'. rewrite Hc. etransitivity; [apply Permutation_app_tail, J11|]. rewrite <- app_assoc. apply Permutation_app_head. symmetry.
      eapply flat_set_nth; [exact Hi|]. unfold owes. cbn [v1 v_backend v_owed].
      destruct (Nat.eqb (v_backend v) b'); [apply map_app|reflexivity].
  Qed.

  (** The program makes a call. *)
  Lemma linked_call V St A L O O' b o :
    (forall b', O' b' = O b' ++ (if Nat.eqb b b' then [o] else [])) ->
    linked V St A L O -> linked V St A (upd L b (LCall o)) O'.
  Proof.
    intros HO [J1 J2 J3 J4 J5 J6 J7 J8 J9 J10 J11]. set (L' := upd L b (LCall o)).
    assert (Hc : forall b', calls_of (L' b') = calls_of (L b') ++ (if Nat.eqb b b' then new_call (LCall o) else [])).
    { intro b'. unfold L', upd. destruct (Nat.eqb b b'); [rewrite calls_snoc; reflexivity|now rewrite app_nil_r]. }
    assert (Hn : forall b', names_of (L' b') = names_of (L b')).
    { intro b'. unfold L', upd. destruct (Nat.eqb b b'); [rewrite names_snoc; apply app_nil_r|reflexivity]. }
    assert (Hh : forall b' k', handed k' (conc_trace p c_init (L' b')) = handed k' (conc_trace p c_init (L b'))).
    { intros b' k'. unfold L', upd. destruct (Nat.eqb b b'); [|reflexivity].
      rewrite trace_snoc, handed_app. replace (snd (conc_step p _ (LCall o))) with (@nil cevent); [apply app_nil_r|].
      cbn [conc_step]. destruct o; reflexivity. }
    assert (Hlc : forall c b', (c < length (calls_of (L b')))%nat -> nth_error (calls_of (L' b')) c = nth_error (calls_of (L b')) c).
    { intros c b' H. rewrite Hc. apply nth_error_app1. exact H. }
    constructor; auto.
    - intros i v name js Hv Hw. destruct (J2 i v name js Hv Hw) as [k [K1 [K2 K3]]]. exists k. rewrite Hn, Hh. auto.
    - intros b' k name H. rewrite Hn in H. auto.
    - intros i v Hv. rewrite <- (J6 i v Hv). apply map_ext_in. intros a Ha. apply filter_In in Ha. destruct Ha as [Ha Et].
      apply Nat.eqb_eq in Et. f_equal. destruct (J7 a Ha) as [w [W1 W2]]. rewrite Et in W1. apply Hlc. congruence.
    - intros a Ha. destruct (J7 a Ha) as [v [K1 K2]]. exists v. rewrite Hc, app_length. split; [exact K1|lia].
    - intros b' c o' H. rewrite HO. destruct (Nat.lt_ge_cases c (length (calls_of (L b')))) as [Hl|Hl].
      + rewrite Hlc in H by exact Hl. destruct (J9 b' c o' H) as [K|K]; [auto|]. right. apply in_or_app. auto.
      + right. rewrite Hc, nth_error_app2 in H by exact Hl. apply in_or_app. right.
        destruct (Nat.eqb b b'); [|destruct (c - _)%nat; discriminate].
        apply nth_error_In in H. clear - H. destruct o; cbn in *; auto; destruct H.
    - intro b'. assert (given (conc_trace p c_init (L' b')) = given (conc_trace p c_init (L b'))) as ->; [|auto].
      unfold L', upd. destruct (Nat.eqb b b'); [|reflexivity].
      rewrite trace_snoc, given_app. replace (snd (conc_step p _ (LCall o))) with (@nil cevent); [apply app_nil_r|].
      cbn [conc_step]. destruct o; reflexivity.
    - intro b'. rewrite Hc, HO. unfold own_calls. rewrite flat_map_app, <- app_assoc.
      etransitivity; [apply Permutation_app_tail, J11|]. rewrite <- app_assoc. apply Permutation_app_head.
      destruct (Nat.eqb b b'); cbn [flat_map]; rewrite ?app_nil_r; [apply Permutation_app_comm|reflexivity].
  Qed.
End Links.
