(** Lemmas about the schedule loops and prune rules. *)
From Coq Require Import Sorted.
From Verif Require Import Base Chrono Types TypesProofs Query Memory MemSpec QueryProofs MemProofs
  Codec Builder Ticker Pruner SchedSpec.

Lemma tick_run_app up s es1 es2 :
  tick_run up s (es1 ++ es2)
  = match tick_run up s es1 with None => None | Some s' => tick_run up s' es2 end.
Proof.
  revert s. induction es1 as [|e es1 IH]; intro s; cbn; [reflexivity|].
  destruct (tick_step up s e); [apply IH | reflexivity].
Qed.

Lemma tick_delay_spec next now : next - 10 * ns_per_ms <= now + tick_delay next now
  /\ tick_delay next now = Z.max 0 (next - now - 10 * ns_per_ms).
Proof.
  unfold tick_delay, to_std, dt_diff.
  destruct (Z.ltb_spec (next - now - 10 * ns_per_ms) 0); lia.
Qed.

Section T.
  Variable I : time -> Prop.
  Variable up : time -> option time.
  Hypothesis Hup : answers I up.
  Variable start : time.

  Definition top (s : ticker) : Z := match tk_fired s with [] => start | (_, n) :: _ => n end.

  (** The loop's invariant. *)
  Definition good (s : ticker) : Prop :=
    start <= tk_clock s
    /\ StronglySorted (fun a b => snd b < snd a) (tk_fired s)
    /\ (forall c n, In (c, n) (tk_fired s) -> I n /\ start < n /\ n - 10 * ns_per_ms <= c)
    /\ match tk_phase s with
       | Computing => top s <= tk_clock s
       | Sleeping next until => I next /\ top s < next /\ next - 10 * ns_per_ms <= until
       | Acting next => top s = next
       | Resting until => top s <= until
       | _ => True
       end.

  Lemma top_start s : good s -> start <= top s.
  Proof.
    intros [_ [_ [Hf _]]]. unfold top. destruct (tk_fired s) as [|[c n] l]; [lia|].
    specialize (Hf c n (or_introl eq_refl)). lia.
  Qed.

  Lemma top_max s c n : good s -> In (c, n) (tk_fired s) -> n <= top s.
  Proof.
    intros [_ [Hs _]] Hi. unfold top. destruct (tk_fired s) as [|[c' n'] l]; [contradiction|].
    destruct Hi as [Hi|Hi]; [injection Hi as -> ->; lia|].
    inversion Hs as [|? ? _ Hall]; subst. rewrite Forall_forall in Hall.
    specialize (Hall _ Hi). cbn in Hall. lia.
  Qed.

  Lemma good_start : good (ticker_start start).
  Proof.
    unfold good, top; cbn. split; [lia|]. split; [constructor|]. split; [intros ? ? []|]. lia.
  Qed.

  Lemma good_step s e s' : good s -> tick_step up s e = Some s' -> good s'.
  Proof.
    intros Hg Hs. pose proof (top_start s Hg) as Hts. pose proof (top_max s) as Htm.
    destruct Hg as [Hc [Hso [Hf Hp]]].
    destruct s as [ph clk fd]. cbn [tk_phase tk_clock tk_fired] in *.
    destruct ph as [|next until|next|until| |], e as [c0 c1|c| |c b|c]; cbn in Hs; try discriminate.
    - destruct (Z.leb_spec clk c0), (Z.leb_spec c0 c1); cbn in Hs; try discriminate.
      pose proof (Hup c0) as Hn. destruct (up c0) as [n|]; injection Hs as <-; unfold good, top in *; cbn in *.
      + destruct Hn as [H1 [H2 _]]. destruct (tick_delay_spec n c1) as [H3 _].
        split; [lia|]. split; [exact Hso|]. split; [exact Hf|]. split; [exact H1|]. split; [lia | exact H3].
      + split; [lia|]. auto.
    - destruct (Z.leb_spec clk c), (Z.leb_spec until c); cbn in Hs; try discriminate.
      injection Hs as <-. destruct Hp as [H1 [H2 H3]].
      assert (Hg : good (mk_ticker (Sleeping next until) clk fd)).
      { unfold good; cbn. auto 10. }
      unfold good, top in *; cbn in *.
      split; [lia|]. split.
      { constructor; [exact Hso|]. apply Forall_forall. intros [c' n'] Hi. cbn.
        specialize (Htm c' n' Hg Hi). lia. }
      split; [|reflexivity].
      intros c' n' [Hi|Hi]; [injection Hi as <- <- | exact (Hf _ _ Hi)].
      split; [exact H1|]. lia.
    - injection Hs as <-. unfold good, top in *; cbn in *. auto.
    - destruct (Z.leb_spec clk c); [|discriminate]. destruct b.
      { injection Hs as <-. unfold good, top in *; cbn in *. split; [lia|]. auto. }
      destruct (Z.ltb_spec 0 (dt_diff next c)); injection Hs as <-; unfold dt_diff, good, top in *; cbn in *.
      + split; [lia|]. split; [exact Hso|]. split; [exact Hf|]. lia.
      + split; [lia|]. split; [exact Hso|]. split; [exact Hf|]. lia.
    - destruct (Z.leb_spec clk c), (Z.leb_spec until c); cbn in Hs; try discriminate.
      injection Hs as <-. unfold good, top in *; cbn in *. split; [lia|]. split; [exact Hso|].
      split; [exact Hf|]. lia.
  Qed.

  Lemma good_run es : forall s s', good s -> tick_run up s es = Some s' -> good s'.
  Proof.
    induction es as [|e es IH]; intros s s' Hg Hr; cbn in Hr; [injection Hr as <-; exact Hg|].
    destruct (tick_step up s e) as [s1|] eqn:E; [|discriminate].
    exact (IH s1 s' (good_step s e s1 Hg E) Hr).
  Qed.

  (** An instant ahead at every look is passed only by acting on it. *)
  Definition ahead (i : time) (s : ticker) : Prop :=
    (exists c, In (c, i) (tk_fired s))
    \/ (top s < i
        /\ match tk_phase s with
           | Sleeping next _ => next <= i
           | _ => True
           end).

  Lemma ahead_step i s e s' :
    I i -> good s -> ahead i s -> tick_step up s e = Some s' ->
    (forall c0 c1, e = Compute c0 c1 -> c0 < i) -> ahead i s'.
  Proof.
    intros HI Hg Ha Hs He. destruct Hg as [Hc [Hso [Hf Hp]]].
    destruct s as [ph clk fd]. cbn [tk_phase tk_clock tk_fired] in *.
    destruct ph as [|next until|next|until| |], e as [c0 c1|c| |c b|c]; cbn in Hs; try discriminate.
    - destruct (Z.leb_spec clk c0), (Z.leb_spec c0 c1); cbn in Hs; try discriminate.
      pose proof (Hup c0) as Hn. specialize (He c0 c1 eq_refl).
      destruct (up c0) as [n|]; injection Hs as <-; unfold ahead, top in *; cbn in *; [|tauto].
      destruct Ha as [Ha|[Ha _]]; [left; exact Ha|right]. split; [exact Ha|].
      destruct Hn as [_ [_ Hn]]. exact (Hn i HI He).
    - destruct (Z.leb_spec clk c), (Z.leb_spec until c); cbn in Hs; try discriminate.
      injection Hs as <-. unfold ahead, top in *; cbn in *.
      destruct Ha as [[c' Ha]|[Ha Hle]]; [left; exists c'; right; exact Ha|].
      destruct (Z.eq_dec next i) as [->|Hne]; [left; exists c; left; reflexivity|].
      right. split; [lia | exact Logic.I].
    - injection Hs as <-. unfold ahead, top in *; cbn in *. tauto.
    - destruct (Z.leb_spec clk c); [|discriminate]. destruct b.
      { injection Hs as <-. unfold ahead, top in *; cbn in *. tauto. }
      destruct (0 <? dt_diff next c); injection Hs as <-; unfold ahead, top in *; cbn in *; tauto.
    - destruct (Z.leb_spec clk c), (Z.leb_spec until c); cbn in Hs; try discriminate.
      injection Hs as <-. unfold ahead, top in *; cbn in *. tauto.
  Qed.

  Lemma ahead_run i es : forall s s',
    I i -> good s -> ahead i s -> tick_run up s es = Some s' ->
    (forall c, looks c es -> c < i) -> ahead i s'.
  Proof.
    induction es as [|e es IH]; intros s s' HI Hg Ha Hr Hl; cbn in Hr; [injection Hr as <-; exact Ha|].
    destruct (tick_step up s e) as [s1|] eqn:E; [|discriminate].
    apply (IH s1 s' HI (good_step s e s1 Hg E)); [|exact Hr|].
    - apply (ahead_step i s e s1 HI Hg Ha E). intros c0 c1 ->. apply Hl. exists c1. left. reflexivity.
    - intros c [c1 Hc]. apply Hl. exists c1. right. exact Hc.
  Qed.
End T.

Lemma ss_rev {A} (R : A -> A -> Prop) l :
  StronglySorted (fun a b => R b a) l -> StronglySorted R (rev l).
Proof.
  induction 1 as [|x l Hs IH Hall]; cbn; [constructor|].
  clear Hs. revert IH. assert (Hx : forall y, In y (rev l) -> R y x).
  { intros y Hy. apply in_rev in Hy. rewrite Forall_forall in Hall. exact (Hall y Hy). }
  generalize dependent (rev l). clear. intros l Hx Hl.
  induction Hl as [|y l Hl IH Hall]; cbn; [constructor; constructor|].
  constructor.
  - apply IH. intros z Hz. apply Hx. right. exact Hz.
  - apply Forall_app. split; [exact Hall|]. constructor; [|constructor]. apply Hx. left. reflexivity.
Qed.

Lemma ss_map {A B} (f : A -> B) (R : B -> B -> Prop) l :
  StronglySorted (fun a b => R (f a) (f b)) l -> StronglySorted R (map f l).
Proof.
  induction 1 as [|x l Hs IH Hall]; cbn; constructor; [exact IH|].
  apply Forall_forall. intros y Hy. apply in_map_iff in Hy. destruct Hy as [z [<- Hz]].
  rewrite Forall_forall in Hall. exact (Hall z Hz).
Qed.

(** * Pruners *)

Lemma fold_and more : forall p,
  pn_status (fold_left (fun p n => pruner_and n p) more p) = pn_status p
  /\ pn_by (fold_left (fun p n => pruner_and n p) more p) = pn_by p
  /\ pn_scope (fold_left (fun p n => pruner_and n p) more p)
     = match pn_scope p with
       | ScopeAll => ScopeAll
       | ScopeExcept l => ScopeExcept (l ++ more)
       | ScopeOnly l => ScopeOnly (l ++ more)
       end.
Proof.
  induction more as [|n more IH]; intro p; cbn [fold_left].
  - split; [reflexivity|]. split; [reflexivity|]. destruct (pn_scope p); rewrite ?app_nil_r; reflexivity.
  - destruct (IH (pruner_and n p)) as [H1 [H2 H3]]. rewrite H1, H2, H3. unfold pruner_and; cbn.
    split; [reflexivity|]. split; [reflexivity|]. destruct (pn_scope p); rewrite <- ?app_assoc; reflexivity.
Qed.

Lemma spec_of_expr x :
  prune_spec_of (eval_pruner x)
  = mk_prune_spec (expr_status x) (expr_limit x)
      (match x with
       | PAll _ _ => Except []
       | POnly _ _ first more => Only (first :: more)
       | PExcept _ _ first more => Except (first :: more)
       end).
Proof.
  unfold prune_spec_of. destruct x as [l s|l s first more|l s first more]; cbn [eval_pruner].
  - destruct l; reflexivity.
  - destruct (fold_and more (only first (eval_limit l s))) as [H1 [H2 H3]].
    rewrite H1, H2, H3. destruct l; reflexivity.
  - destruct (fold_and more (except first (eval_limit l s))) as [H1 [H2 H3]].
    rewrite H1, H2, H3. destruct l; reflexivity.
Qed.

Lemma config_fold calls : forall c,
  pc_pruners (fold_left apply_config calls c) = pc_pruners c ++ map prune_spec_of (named_pruners calls).
Proof.
  induction calls as [|call calls IH]; intro c; cbn [fold_left].
  - cbn. rewrite app_nil_r. reflexivity.
  - rewrite IH. destruct call as [l|p|l]; cbn.
    + reflexivity.
    + rewrite <- app_assoc. reflexivity.
    + rewrite map_app, app_assoc. reflexivity.
Qed.

(** * Firing *)

Lemma set_nth_length {A} i (x : A) l : length (set_nth i x l) = length l.
Proof. apply set_nth_map_length. Qed.

Lemma set_nth_nth {A} (x : A) l : forall i j,
  (i < length l)%nat ->
  nth_error (set_nth i x l) j = if Nat.eqb i j then Some x else nth_error l j.
Proof.
  induction l as [|y l IH]; intros i j Hi; cbn in *; [lia|].
  destruct i as [|i], j as [|j]; cbn; try reflexivity. apply IH. lia.
Qed.

Lemma first_waiting_spec l i :
  first_waiting l = Some i <->
  nth_error l i = Some Waiting /\ forall k, (k < i)%nat -> nth_error l k <> Some Waiting.
Proof.
  revert i. induction l as [|r l IH]; intro i; cbn [first_waiting].
  - split; [discriminate|]. intros [H _]. destruct i; discriminate.
  - destruct r as [| |rr].
    + split.
      * intro H. injection H as <-. split; [reflexivity|]. intros k Hk. lia.
      * intros [H1 H2]. destruct i as [|i]; [reflexivity|]. destruct (H2 O ltac:(lia) eq_refl).
    + destruct i as [|i].
      * split; [destruct (first_waiting l); discriminate|]. intros [H _]. discriminate.
      * cbn. destruct (IH i) as [I1 I2]. split.
        -- destruct (first_waiting l) as [j|]; [|discriminate]. cbn. intro H. injection H as ->.
           destruct (I1 eq_refl) as [H1 H2]. split; [exact H1|]. intros [|k] Hk; [discriminate|].
           apply H2. lia.
        -- intros [H1 H2]. rewrite I2; [reflexivity|]. split; [exact H1|]. intros k Hk.
           apply (H2 (S k)). lia.
    + destruct i as [|i].
      * split; [destruct (first_waiting l); discriminate|]. intros [H _]. discriminate.
      * cbn. destruct (IH i) as [I1 I2]. split.
        -- destruct (first_waiting l) as [j|]; [|discriminate]. cbn. intro H. injection H as ->.
           destruct (I1 eq_refl) as [H1 H2]. split; [exact H1|]. intros [|k] Hk; [discriminate|].
           apply H2. lia.
        -- intros [H1 H2]. rewrite I2; [reflexivity|]. split; [exact H1|]. intros k Hk.
           apply (H2 (S k)). lia.
Qed.

Lemma first_waiting_none l : first_waiting l = None <-> forall k, nth_error l k <> Some Waiting.
Proof.
  split.
  - intros H k. revert l H. induction k as [|k IH]; intros [|r l] H; cbn in *; try discriminate.
    + destruct r; [discriminate H|discriminate|discriminate].
    + apply IH. destruct r; [discriminate H| |]; destruct (first_waiting l); try reflexivity; discriminate.
  - induction l as [|r l IH]; intro H; [reflexivity|]. cbn. destruct r.
    + destruct (H O eq_refl).
    + rewrite IH; [reflexivity|]. intro k. exact (H (S k)).
    + rewrite IH; [reflexivity|]. intro k. exact (H (S k)).
Qed.

(** The first [n] rules have been started, in order, and no others. *)
Definition started (n : nat) (s : firing) : Prop :=
  f_calls s = seq 0 n /\ (n <= length (f_rules s))%nat
  /\ forall k, (k < length (f_rules s))%nat -> (nth_error (f_rules s) k = Some Waiting <-> (n <= k)%nat).

Lemma started_start c : started 0 (firing_start c).
Proof.
  unfold started, firing_start; cbn. split; [reflexivity|]. split; [lia|]. intros k Hk.
  rewrite map_length in Hk. rewrite nth_error_map.
  destruct (nth_error (pc_pruners c) k) eqn:E; [|apply nth_error_None in E; lia].
  cbn. split; [lia|reflexivity].
Qed.

Lemma firing_step_started n s e s' :
  started n s -> firing_step s e = Some s' ->
  length (f_rules s') = length (f_rules s) /\ (started n s' \/ started (S n) s').
Proof.
  intros [Hc [Hn Hw]] Hs. unfold firing_step in Hs. destruct (f_crashed s); [discriminate|].
  destruct e as [|i r].
  - destruct (first_waiting (f_rules s)) as [i|] eqn:E; [|discriminate]. injection Hs as <-.
    apply first_waiting_spec in E. destruct E as [E1 E2]. cbn.
    assert (Hi : (i < length (f_rules s))%nat) by (apply nth_error_Some; congruence).
    pose proof (proj1 (Hw i Hi) E1) as Hni.
    assert (i = n).
    { destruct (Nat.eq_dec i n) as [|Hne]; [assumption|]. exfalso. apply (E2 n ltac:(lia)).
      apply Hw; lia. }
    subst i. split; [apply set_nth_length|]. right. unfold started; cbn.
    rewrite Hc, set_nth_length. split; [symmetry; apply (seq_S n 0)|]. split; [lia|].
    intros k Hk. rewrite set_nth_nth by exact Hi. destruct (Nat.eqb_spec n k) as [->|Hne].
    + split; [discriminate|lia].
    + rewrite (Hw k Hk). lia.
  - destruct (nth_error (f_rules s) i) as [[| |x]|] eqn:E; try discriminate. injection Hs as <-. cbn.
    assert (Hi : (i < length (f_rules s))%nat) by (apply nth_error_Some; congruence).
    split; [apply set_nth_length|]. left. unfold started; cbn. rewrite set_nth_length.
    split; [exact Hc|]. split; [exact Hn|].
    intros k Hk. rewrite set_nth_nth by exact Hi. destruct (Nat.eqb_spec i k) as [<-|Hne].
    + split; [discriminate|]. intro Hle. apply (Hw i Hi) in Hle. congruence.
    + apply Hw. exact Hk.
Qed.

Lemma firing_run_started es : forall n s s',
  started n s -> firing_run s es = Some s' ->
  length (f_rules s') = length (f_rules s) /\ exists n', (n <= n')%nat /\ started n' s'.
Proof.
  induction es as [|e es IH]; intros n s s' Hst Hr; cbn in Hr.
  - injection Hr as <-. split; [reflexivity|]. exists n. split; [lia|exact Hst].
  - destruct (firing_step s e) as [s1|] eqn:E; [|discriminate].
    destruct (firing_step_started n s e s1 Hst E) as [H1 [H2|H2]];
      destruct (IH _ s1 s' H2 Hr) as [H3 [n' [H4 H5]]]; (split; [congruence|]); exists n'; (split; [lia|exact H5]).
Qed.

Lemma over_done s k : firing_over s = true -> (k < length (f_rules s))%nat ->
  exists r, nth_error (f_rules s) k = Some (Done r).
Proof.
  unfold firing_over. rewrite forallb_forall. intros H Hk.
  destruct (nth_error (f_rules s) k) as [x|] eqn:E; [|apply nth_error_None in E; lia].
  specialize (H x (nth_error_In _ _ E)). destruct x; try discriminate. eexists; reflexivity.
Qed.

Lemma over_all_called n s : started n s -> firing_over s = true -> f_calls s = seq 0 (length (f_rules s)).
Proof.
  intros [Hc [Hn Hw]] Ho. destruct (Nat.eq_dec n (length (f_rules s))) as [<-|Hne]; [exact Hc|].
  destruct (over_done s n Ho ltac:(lia)) as [r Hr].
  assert (nth_error (f_rules s) n = Some Waiting) by (apply Hw; lia). congruence.
Qed.

(** How far a firing is from its end. *)
Definition weight (r : rule_state) : nat := match r with Waiting => 2 | Running => 1 | Done _ => 0 end.
Fixpoint total (l : list rule_state) : nat :=
  match l with [] => O | r :: l' => (weight r + total l')%nat end.
Definition remaining (s : firing) : nat := total (f_rules s).

Lemma remaining_set i x y l : nth_error l i = Some x ->
  (total (set_nth i y l) + weight x = total l + weight y)%nat.
Proof.
  revert i. induction l as [|z l IH]; intros [|i] H; cbn in *; try discriminate.
  - assert (z = x) by congruence. subst z. cbn. lia.
  - specialize (IH i H). lia.
Qed.

Lemma firing_next r s :
  (forall i, r i <> Panic) -> f_crashed s = false -> firing_over s = false ->
  exists e s', firing_step s e = Some s' /\ f_crashed s' = false /\ (remaining s' < remaining s)%nat
    /\ (e = Poll_next \/ exists i, e = Finish i (r i)).
Proof.
  intros Hr Hc Ho.
  destruct (first_waiting (f_rules s)) as [i|] eqn:E.
  - exists Poll_next. eexists. unfold firing_step. rewrite Hc, E. split; [reflexivity|]. cbn.
    split; [reflexivity|]. split; [|left; reflexivity].
    apply first_waiting_spec in E. destruct E as [E _].
    pose proof (remaining_set i Waiting Running (f_rules s) E) as H. unfold remaining. cbn in *. lia.
  - assert (Hx : exists k, nth_error (f_rules s) k = Some Running).
    { unfold firing_over in Ho. clear -E Ho. induction (f_rules s) as [|x l IH]; [discriminate|].
      cbn in Ho. destruct x as [| |rr].
      - cbn in E. discriminate.
      - exists O. reflexivity.
      - cbn in E, Ho. destruct IH as [k Hk].
        + exact Ho.
        + destruct (first_waiting l); [discriminate|reflexivity].
        + exists (S k). exact Hk. }
    destruct Hx as [k Hk]. exists (Finish k (r k)). eexists. unfold firing_step. rewrite Hc, Hk.
    split; [reflexivity|]. cbn. split; [destruct (r k) eqn:Er; try reflexivity; destruct (Hr k Er)|].
    split; [|right; exists k; reflexivity].
    pose proof (remaining_set k Running (Done (r k)) (f_rules s) Hk) as H. unfold remaining. cbn in *. lia.
Qed.

Lemma firing_completes r : (forall i, r i <> Panic) -> forall n s,
  (remaining s <= n)%nat -> f_crashed s = false ->
  exists es s', firing_run s es = Some s' /\ firing_over s' = true /\ f_crashed s' = false
    /\ forall i x, In (Finish i x) es -> x = r i.
Proof.
  intros Hr n. induction n as [|n IH]; intros s Hle Hc.
  - destruct (firing_over s) eqn:Ho.
    + exists [], s. cbn. split; [reflexivity|]. split; [exact Ho|]. split; [exact Hc|]. intros i x [].
    + destruct (firing_next r s Hr Hc Ho) as [e [s' [_ [_ [H _]]]]]. lia.
  - destruct (firing_over s) eqn:Ho.
    + exists [], s. cbn. split; [reflexivity|]. split; [exact Ho|]. split; [exact Hc|]. intros i x [].
    + destruct (firing_next r s Hr Hc Ho) as [e [s1 [H1 [H2 [H3 H4]]]]].
      destruct (IH s1 ltac:(lia) H2) as [es [s' [H5 [H6 [H7 H8]]]]].
      exists (e :: es), s'. cbn. rewrite H1. split; [exact H5|]. split; [exact H6|]. split; [exact H7|].
      intros i x [Hi|Hi]; [|exact (H8 i x Hi)].
      destruct H4 as [->|[k ->]]; [discriminate|]. injection Hi as <- <-. reflexivity.
Qed.

(** The result a rule ends with is the one its backend call finished with. *)
Lemma firing_results es : forall s s' i r,
  firing_run s es = Some s' -> nth_error (f_rules s') i = Some (Done r) ->
  nth_error (f_rules s) i = Some (Done r) \/ In (Finish i r) es.
Proof.
  induction es as [|e es IH]; intros s s' i r Hr Hd; cbn in Hr; [injection Hr as <-; left; exact Hd|].
  destruct (firing_step s e) as [s1|] eqn:E; [|discriminate].
  destruct (IH s1 s' i r Hr Hd) as [H|H]; [|right; right; exact H].
  unfold firing_step in E. destruct (f_crashed s); [discriminate|]. destruct e as [|k x].
  - destruct (first_waiting (f_rules s)) as [k|] eqn:Ew; [|discriminate]. injection E as <-.
    apply first_waiting_spec in Ew. destruct Ew as [Ew _]. cbn in H.
    rewrite set_nth_nth in H by (apply nth_error_Some; congruence).
    destruct (Nat.eqb k i); [discriminate|left; exact H].
  - destruct (nth_error (f_rules s) k) as [[| |y]|] eqn:Ek; try discriminate. injection E as <-. cbn in H.
    rewrite set_nth_nth in H by (apply nth_error_Some; congruence).
    destruct (Nat.eqb_spec k i) as [->|Hne]; [|left; exact H]. injection H as ->. right. left. reflexivity.
Qed.

(** * Pruning the in-memory backend *)

Lemma prune_ok now m ps : age_in_range now ps -> snd (mem_prune now m ps) <> Panic.
Proof.
  intro H. unfold mem_prune. destruct (m_poisoned m); [discriminate|].
  unfold age_in_range in H. destruct (ps_by ps) as [d|n]; [|discriminate].
  unfold dt_sub, dt_add, in_dt. destruct H as [[H1 H2] [H3 H4]].
  rewrite !(proj2 (Z.leb_le _ _)) by assumption. discriminate.
Qed.

Lemma prune_all_runs p now rules : forall m,
  (forall ps, In ps rules -> age_in_range now ps) ->
  prune_all now m rules = (mem_run p m (map (fun ps => (now, OpPrune ps)) rules), false).
Proof.
  induction rules as [|ps rules IH]; intros m H; cbn [prune_all map mem_run]; [reflexivity|].
  pose proof (prune_ok now m ps (H ps (or_introl eq_refl))) as Hp. cbn [mem_step].
  destruct (mem_prune now m ps) as [m' r] eqn:E. cbn in *.
  rewrite <- IH by (intros q Hq; apply H; right; exact Hq).
  destruct r; [reflexivity|reflexivity|contradiction].
Qed.

(** * Cron jobs in the in-memory backend *)

Section CronMem.
  Context {D M : Type}.
  Variable c : codec D M.
  Variable ex : exec_consts.

  Lemma cron_no_conflict data hash t now next e k :
    request c ex (cron_builder data hash t next) = Some e -> enqueuable_matches now e k = false.
  Proof.
    unfold request. cbn [b_data b_metadata cron_builder with_data schedule_at unique builder_default enc_opt].
    destruct (enc_data c data) as [d|]; [|discriminate]. cbn. intro H. injection H as <-.
    destruct (enqueuable_matches now _ k) eqn:E; [|reflexivity].
    apply enqueuable_matches_spec in E. destruct E as [uq [H1 [_ [_ [_ H2]]]]].
    cbn in H1. injection H1 as <-. specialize (H2 0 eq_refl). lia.
  Qed.

  Lemma cron_adds data hash t now next m e :
    m_poisoned m = false -> request c ex (cron_builder data hash t next) = Some e ->
    exists m', cron_enqueue c ex data hash t next (mem_enqueue now) m = (m', ROk (m_next_id m))
      /\ m_poisoned m' = false
      /\ jobs_of m' = jobs_of m ++ [new_job now (m_next_id m) e].
  Proof.
    intros Hp He. unfold cron_enqueue, enqueue_to. rewrite He. unfold mem_enqueue.
    assert (Hc : eq_criteria e = Some (cron_criteria hash)).
    { revert He. unfold request. cbn. destruct (enc_data c data); [|discriminate]. cbn.
      intro H. injection H as <-. reflexivity. }
    rewrite Hc. unfold insert_unique_job, matching_jobs. rewrite Hp.
    replace (filter (enqueuable_matches now e) (m_jobs m)) with (@nil kjob).
    2:{ symmetry. induction (m_jobs m) as [|k l IH]; [reflexivity|]. cbn.
        rewrite (cron_no_conflict data hash t now next e k He). exact IH. }
    unfold insert_new_job. cbn. rewrite Hp. eexists. split; [reflexivity|].
    rewrite notify_poisoned. split; [cbn; reflexivity|].
    unfold jobs_of. rewrite notify_jobs. cbn. rewrite map_app. reflexivity.
  Qed.
End CronMem.
