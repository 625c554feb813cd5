(** Lemmas about the text of queries and how the server reads it. *)
From Coq Require Import Permutation Sorted.
From Verif Require Import Base Chrono Types TypesProofs Query QueryProofs WhereProofs Memory MemSpec MemProofs
  PgRow PgQuery Pg PgSpec PgProofs.

(** What may follow a condition inside a clause. *)
Inductive stops : list token -> Prop :=
| st_end : stops []
| st_and l : stops (TAnd :: l)
| st_or l : stops (TOr :: l).

(** A piece of text that is one operand of AND. *)
Definition operand (ts : list token) (c : cond) : Prop :=
  forall rest, stops rest -> parse_not (ts ++ rest) = Some (c, rest).

Definition texts (l : list (list token * cond)) : list (list token) := map fst l.
Definition operands (l : list (list token * cond)) : Prop := Forall (fun x => operand (fst x) (snd x)) l.

Lemma operand_nonempty ts c : operand ts c -> ts <> [].
Proof. intros H ->. specialize (H [] st_end). discriminate. Qed.

Lemma joined_cons k x l : l <> [] -> joined k (x :: l) = x ++ k :: joined k l.
Proof. destruct l; [congruence|reflexivity]. Qed.
Lemma joined_app k l l' : l <> [] -> l' <> [] -> joined k (l ++ l') = joined k l ++ k :: joined k l'.
Proof.
  induction l as [|x l IH]; [congruence|]. intros _ H'. destruct l as [|y l].
  - cbn [app]. rewrite joined_cons by exact H'. reflexivity.
  - change ((x :: y :: l) ++ l') with (x :: ((y :: l) ++ l')). rewrite joined_cons by (destruct l; discriminate).
    rewrite IH by (congruence || exact H'). rewrite (joined_cons k x (y :: l)) by discriminate.
    rewrite <- app_assoc. reflexivity.
Qed.
Lemma joined_concat k (ll : list (list (list token))) : (forall l, In l ll -> l <> []) ->
  joined k (map (joined k) ll) = joined k (concat ll).
Proof.
  induction ll as [|l ll IH]; intro H; [reflexivity|]. destruct ll as [|l' ll].
  - cbn. rewrite app_nil_r. reflexivity.
  - change (map (joined k) (l :: l' :: ll)) with (joined k l :: map (joined k) (l' :: ll)).
    rewrite joined_cons by discriminate. rewrite IH by (intros; apply H; right; assumption).
    change (concat (l :: l' :: ll)) with (l ++ concat (l' :: ll)). rewrite joined_app; [reflexivity| |].
    + apply H. left. reflexivity.
    + cbn. specialize (H l'). destruct l'; [exfalso; apply H; [right; left|]; reflexivity|discriminate].
Qed.

(** The conditions of a conjunction and of a disjunction of conjunctions. *)
Fixpoint conj (c : cond) (l : list cond) : cond :=
  match l with [] => c | c' :: l' => CondAnd c (conj c' l') end.
Lemma eval_conj l : forall c r, eval (conj c l) r = true <-> forall x, In x (c :: l) -> eval x r = true.
Proof.
  induction l as [|c' l IH]; intros c r; cbn [conj eval].
  - split; [intros H x [<-|[]]; exact H | intro H; apply H; left; reflexivity].
  - rewrite andb_true_iff, IH. split.
    + intros [H1 H2] x [<-|Hx]; auto.
    + intro H. split; [apply H; left; reflexivity | intros x Hx; apply H; right; exact Hx].
Qed.

Lemma parse_not_nonempty ts c rest : parse_not ts = Some (c, rest) -> ts <> [].
Proof. destruct ts; [discriminate|congruence]. Qed.

Lemma parse_and_joined l : forall x fuel rest,
  operands (x :: l) -> rest = [] \/ (exists l', rest = TOr :: l') -> (length l < fuel)%nat ->
  parse_and fuel (joined TAnd (texts (x :: l)) ++ rest) = Some (conj (snd x) (map snd l), rest).
Proof.
  induction l as [|y l IH]; intros x fuel rest Ho Hr Hf; (destruct fuel as [|fuel]; [cbn in Hf; lia|]).
  - cbn [texts map joined parse_and conj]. inversion Ho as [|? ? H1 _]; subst. rewrite H1.
    + destruct Hr as [->|[l' ->]]; reflexivity.
    + destruct Hr as [->|[l' ->]]; constructor.
  - cbn [texts map]. rewrite joined_cons by discriminate. rewrite <- app_assoc. cbn [parse_and].
    inversion Ho as [|? ? H1 H2]; subst. rewrite H1 by constructor. cbn [app].
    specialize (IH y fuel rest H2 Hr). cbn [texts map] in IH. rewrite IH by (cbn in Hf; lia).
    cbn [conj]. reflexivity.
Qed.

Lemma joined_length k l : (length (concat l) <= length (joined k l))%nat.
Proof.
  induction l as [|x l IH]; [apply le_n|]. destruct l as [|y l]; [cbn; rewrite app_nil_r; apply le_n|].
  rewrite joined_cons by discriminate. change (concat (x :: y :: l)) with (x ++ concat (y :: l)).
  rewrite !app_length. cbn [length]. lia.
Qed.
Lemma operands_length l : operands l -> (length l <= length (concat (texts l)))%nat.
Proof.
  induction 1 as [|x l H _ IH]; [apply le_n|]. cbn. rewrite app_length. pose proof (operand_nonempty _ _ H).
  destruct (fst x); [congruence|]. cbn. unfold texts in IH. lia.
Qed.

Definition branch_text (l : list (list token * cond)) : list token := joined TAnd (texts l).
Definition branches (ll : list (list (list token * cond))) : Prop := Forall (fun l => l <> [] /\ operands l) ll.

Lemma parse_or_joined ll : forall l fuel,
  branches (l :: ll) -> (length ll < fuel)%nat ->
  exists c, parse_or fuel (joined TOr (map branch_text (l :: ll))) = Some (c, [])
    /\ forall r, eval c r = true <-> exists b, In b (l :: ll) /\ forall x, In x b -> eval (snd x) r = true.
Proof.
  assert (Hb : forall (l : list (list token * cond)) rest, l <> [] -> operands l -> rest = [] \/ (exists l', rest = TOr :: l') ->
     exists c, parse_and (S (length (branch_text l ++ rest))) (branch_text l ++ rest) = Some (c, rest)
       /\ forall r, eval c r = true <-> forall x, In x l -> eval (snd x) r = true).
  { intros l rest Hl Ho Hr. destruct l as [|x l]; [congruence|]. exists (conj (snd x) (map snd l)). split.
    - apply parse_and_joined; [exact Ho|exact Hr|]. unfold branch_text. rewrite app_length.
      pose proof (joined_length TAnd (texts (x :: l))). pose proof (operands_length _ Ho). cbn [length] in *. lia.
    - intro r. rewrite eval_conj. change (snd x :: map snd l) with (map snd (x :: l)). split.
      + intros H y Hy. apply H, in_map, Hy.
      + intros H c Hc. apply in_map_iff in Hc. destruct Hc as [y [<- Hy]]. auto. }
  induction ll as [|l' ll IH]; intros l fuel Ho Hf; (destruct fuel as [|fuel]; [cbn in Hf; lia|]).
  - inversion Ho as [|? ? [H1 H2] _]; subst. destruct (Hb l [] H1 H2 (or_introl eq_refl)) as [c [E Hc]].
    rewrite app_nil_r in E. exists c. split.
    + cbn [map joined parse_or]. rewrite E. reflexivity.
    + intro r. rewrite Hc. split; [intro H; exists l; split; [left; reflexivity|exact H]|].
      intros [b [[<-|[]] H]]. exact H.
  - inversion Ho as [|? ? [H1 H2] H3]; subst.
    destruct (IH l' fuel H3) as [c2 [E2 Hc2]]; [cbn in Hf; lia|].
    destruct (Hb l (TOr :: joined TOr (map branch_text (l' :: ll))) H1 H2) as [c [E Hc]]; [right; eauto|].
    exists (CondOr c c2). split.
    + change (map branch_text (l :: l' :: ll)) with (branch_text l :: map branch_text (l' :: ll)).
      rewrite joined_cons by discriminate. cbn [parse_or]. rewrite E, E2. reflexivity.
    + intro r. cbn [eval]. rewrite orb_true_iff, Hc, Hc2. split.
      * intros [H|[b [Hb1 Hb2]]]; [exists l; split; [left; reflexivity|exact H] | exists b; split; [right; exact Hb1|exact Hb2]].
      * intros [b [[<-|Hb1] Hb2]]; [left; exact Hb2 | right; exists b; auto].
Qed.

(** * Faithful pieces *)

Definition means (f : row -> Prop) (q : query) : Prop := forall r j, represents r j -> (f r <-> sat q j).

Definition single (q : query) : Prop :=
  exists c, operand (handle_query q) c /\ bounds_ok (handle_query q) = true /\ means (fun r => eval c r = true) q.
Definition conjunctive (q : query) : Prop :=
  exists l, l <> [] /\ operands l /\ handle_query q = branch_text l /\ bounds_ok (handle_query q) = true
    /\ means (fun r => forall x, In x l -> eval (snd x) r = true) q.
Definition disjunctive (q : query) : Prop :=
  exists ll, ll <> [] /\ branches ll /\ handle_query q = joined TOr (map branch_text ll)
    /\ bounds_ok (handle_query q) = true
    /\ means (fun r => exists b, In b ll /\ forall x, In x b -> eval (snd x) r = true) q.
Definition faithful (p : place) : query -> Prop :=
  match p with Negated => single | Conjunct => conjunctive | Anywhere => disjunctive end.

Lemma single_conjunctive q : single q -> conjunctive q.
Proof.
  intros [c [H1 [H2 H3]]]. exists [(handle_query q, c)]. split; [discriminate|]. split; [constructor; [exact H1|constructor]|].
  split; [reflexivity|]. split; [exact H2|]. intros r j Hr. rewrite <- (H3 r j Hr). split.
  - intro H. apply (H (handle_query q, c)). left. reflexivity.
  - intros H x [<-|[]]. exact H.
Qed.
Lemma conjunctive_disjunctive q : conjunctive q -> disjunctive q.
Proof.
  intros [l [H1 [H2 [H3 [H4 H5]]]]]. exists [l]. split; [discriminate|].
  split; [constructor; [split; assumption|constructor]|]. split; [exact H3|]. split; [exact H4|].
  intros r j Hr. rewrite <- (H5 r j Hr). split.
  - intros [b [[<-|[]] H]]. exact H.
  - intro H. exists l. split; [left; reflexivity|exact H].
Qed.
Lemma single_faithful p q : single q -> faithful p q.
Proof. destruct p; cbn; auto using single_conjunctive, conjunctive_disjunctive. Qed.

Lemma bounds_ok_app a b : bounds_ok (a ++ b) = bounds_ok a && bounds_ok b.
Proof. apply forallb_app. Qed.
Lemma bounds_ok_joined k l : (k = TAnd \/ k = TOr) -> (forall x, In x l -> bounds_ok x = true) -> bounds_ok (joined k l) = true.
Proof.
  intro Hk. induction l as [|x l IH]; intro H; [reflexivity|]. destruct l as [|y l]; [apply H; left; reflexivity|].
  rewrite joined_cons by discriminate. rewrite bounds_ok_app, (H x (or_introl eq_refl)).
  cbn [andb]. unfold bounds_ok at 1. cbn [forallb]. destruct Hk as [-> | ->]; apply IH; intros; apply H; right; assumption.
Qed.

Lemma in_concat_flat {A} (ll : list (list A)) x : In x (concat ll) <-> exists l, In l ll /\ In x l.
Proof. apply in_concat. Qed.

Lemma conjunctive_and qs : qs <> [] -> (forall q, In q qs -> conjunctive q) -> conjunctive (QAnd qs).
Proof.
  intros Hne H.
  assert (Hl : exists ll : list (list (list token * cond)),
    Forall2 (fun q l => l <> [] /\ operands l /\ handle_query q = branch_text l /\ bounds_ok (handle_query q) = true
      /\ means (fun r => forall x, In x l -> eval (snd x) r = true) q) qs ll).
  { clear Hne. induction qs as [|q qs IH]; [exists []; constructor|].
    destruct IH as [ll Hll]; [intros; apply H; right; assumption|].
    destruct (H q (or_introl eq_refl)) as [l Hq]. exists (l :: ll). constructor; assumption. }
  destruct Hl as [ll Hll]. exists (concat ll).
  assert (H1 : forall l, In l ll -> l <> [] /\ operands l).
  { clear -Hll. induction Hll as [|q l qs ll [H1 [H2 _]] _ IH]; [intros ? []|]. intros x [<-|Hx]; auto. }
  split.
  { destruct qs as [|q qs]; [congruence|]. inversion Hll as [|? l ? ll' Hq _]; subst. cbn.
    destruct l; [destruct Hq; congruence|discriminate]. }
  split. { unfold operands. apply Forall_concat, Forall_forall. intros l Hl. apply H1. exact Hl. }
  split.
  { cbn [handle_query]. unfold branch_text, texts. rewrite concat_map.
    rewrite <- joined_concat.
    - f_equal. rewrite map_map. clear -Hll. induction Hll as [|q l qs ll [_ [_ [E _]]] _ IH]; [reflexivity|].
      cbn. rewrite E, IH. reflexivity.
    - intros l Hl. apply in_map_iff in Hl. destruct Hl as [x [<- Hx]]. destruct (H1 x Hx) as [Hx' _].
      destruct x; [congruence|discriminate]. }
  split.
  { cbn [handle_query]. apply bounds_ok_joined; [left; reflexivity|]. intros x Hx. apply in_map_iff in Hx.
    destruct Hx as [q [<- Hq]]. destruct (H q Hq) as [? [_ [_ [_ [Hb _]]]]]. exact Hb. }
  intros r j Hr. rewrite sat_and_forall. transitivity (Forall (fun l => forall x, In x l -> eval (snd x) r = true) ll).
  { rewrite Forall_forall. split.
    - intros Hx l Hl x Hxl. apply Hx, in_concat. eauto.
    - intros Hx x Hxl. apply in_concat in Hxl. destruct Hxl as [l [Hl Hxl]]. eauto. }
  clear -Hll Hr. induction Hll as [|q l qs ll [_ [_ [_ [_ M]]]] _ IH]; [split; constructor|].
  split; intro H; inversion H as [|? ? Ha Hb]; subst; constructor; try (apply (M r j Hr)); try (apply IH); assumption.
Qed.

Lemma disjunctive_or qs : qs <> [] -> (forall q, In q qs -> disjunctive q) -> disjunctive (QOr qs).
Proof.
  intros Hne H.
  assert (Hl : exists lll : list (list (list (list token * cond))),
    Forall2 (fun q ll => ll <> [] /\ branches ll /\ handle_query q = joined TOr (map branch_text ll) /\ bounds_ok (handle_query q) = true
      /\ means (fun r => exists b, In b ll /\ forall x, In x b -> eval (snd x) r = true) q) qs lll).
  { clear Hne. induction qs as [|q qs IH]; [exists []; constructor|].
    destruct IH as [ll Hll]; [intros; apply H; right; assumption|].
    destruct (H q (or_introl eq_refl)) as [l Hq]. exists (l :: ll). constructor; assumption. }
  destruct Hl as [ll Hll]. exists (concat ll).
  assert (H1 : forall l, In l ll -> l <> [] /\ branches l).
  { clear -Hll. induction Hll as [|q l qs ll [H1 [H2 _]] _ IH]; [intros ? []|]. intros x [<-|Hx]; auto. }
  split.
  { destruct qs as [|q qs]; [congruence|]. inversion Hll as [|? l ? ll' Hq _]; subst. cbn.
    destruct l; [destruct Hq; congruence|discriminate]. }
  split. { unfold branches. apply Forall_concat, Forall_forall. intros l Hl. apply H1. exact Hl. }
  split.
  { cbn [handle_query]. rewrite concat_map. rewrite <- joined_concat.
    - f_equal. rewrite map_map. clear -Hll. induction Hll as [|q l qs ll [_ [_ [E _]]] _ IH]; [reflexivity|].
      cbn. rewrite E, IH. reflexivity.
    - intros l Hl. apply in_map_iff in Hl. destruct Hl as [x [<- Hx]]. destruct (H1 x Hx) as [Hx' _].
      destruct x; [congruence|discriminate]. }
  split.
  { cbn [handle_query]. apply bounds_ok_joined; [right; reflexivity|]. intros x Hx. apply in_map_iff in Hx.
    destruct Hx as [q [<- Hq]]. destruct (H q Hq) as [? [_ [_ [_ [Hb _]]]]]. exact Hb. }
  intros r j Hr. rewrite sat_or_exists.
  transitivity (Exists (fun ll => exists b, In b ll /\ forall x, In x b -> eval (snd x) r = true) ll).
  { rewrite Exists_exists. split.
    - intros [b [Hb Hx]]. apply in_concat in Hb. destruct Hb as [l [Hl Hb]]. eauto.
    - intros [l [Hl [b [Hb Hx]]]]. exists b. split; [apply in_concat; eauto|exact Hx]. }
  clear -Hll Hr. induction Hll as [|q l qs ll [_ [_ [_ [_ M]]]] _ IH]; [split; intro H; inversion H|].
  split; intro H; inversion H as [? ? Ha|? ? Ha]; subst; [left; apply (M r j Hr)|right; apply IH|left; apply (M r j Hr)|right; apply IH]; assumption.
Qed.

Lemma not_sat q j : sat (QNot q) j <-> ~ sat q j.
Proof.
  rewrite <- !query_matches_sat. cbn. rewrite negb_true_iff. destruct (query_matches q j); intuition congruence.
Qed.
Lemma single_not q : single q -> single (QNot q).
Proof.
  intros [c [H1 [H2 H3]]]. exists (CondNot c). split.
  - intros rest Hrest. cbn. rewrite (H1 rest Hrest). reflexivity.
  - split; [exact H2|]. intros r j Hr. cbn. rewrite not_sat, <- (H3 r j Hr), negb_true_iff.
    destruct (eval c r); intuition congruence.
Qed.

Lemma single_leaf q c : operand (handle_query q) c -> bounds_ok (handle_query q) = true ->
  (forall r j, represents r j -> (eval c r = true <-> sat q j)) -> single q.
Proof. intros H1 H2 H3. exists c. auto. Qed.

Ltac leaf c :=
  apply single_faithful, (single_leaf _ c);
  [intros rest Hst; destruct Hst; reflexivity| |
   intros r j Hr; row_fields Hr; rewrite <- query_matches_sat; cbn [eval compare_row query_matches]].

Lemma bound_time_ok t : kept_time t -> bound_ok (BTime t) = true.
Proof. intro H. destruct (pg_time_kept t H) as [_ H']. exact H'. Qed.
Lemma one_bound ts b : forallb (fun t => match t with TBind b => bound_ok b | _ => true end) ts = bound_ok b -> bound_ok b = true -> bounds_ok ts = true.
Proof. intros H1 H2. unfold bounds_ok. congruence. Qed.

Lemma plain_faithful p q : plain p q -> faithful p q.
Proof.
  induction 1.
  - apply single_faithful, single_not. exact IHplain.
  - assert (E : forall j, sat (QAnd [q]) j <-> sat q j).
    { intro j. rewrite sat_and_forall. split; [intro Hx; inversion Hx; assumption|intro; constructor; [assumption|constructor]]. }
    destruct p; cbn in *; repeat (let x := fresh in destruct IHplain as [x IHplain]; exists x);
      repeat (split; [apply IHplain|]); intros r j Hr; rewrite E; apply IHplain; exact Hr.
  - assert (E : forall j, sat (QOr [q]) j <-> sat q j).
    { intro j. rewrite sat_or_exists. split; [intro Hx; inversion Hx as [? ? Ha|? ? Ha]; [exact Ha|inversion Ha]|intro; left; assumption]. }
    destruct p; cbn in *; repeat (let x := fresh in destruct IHplain as [x IHplain]; exists x);
      repeat (split; [apply IHplain|]); intros r j Hr; rewrite E; apply IHplain; exact Hr.
  - pose proof (conjunctive_and qs H0 H2) as Hc. destruct p; cbn; [apply conjunctive_disjunctive| |congruence]; exact Hc.
  - apply disjunctive_or; assumption.
  - leaf (CondCompare TEq CExecutor (BText e)).
    + apply (one_bound _ (BText e)); [cbn; rewrite andb_true_r; reflexivity|]. apply storable_clean. exact H.
    + rewrite R3. reflexivity.
  - leaf (CondCompare TEq CData (BJson v)).
    + apply (one_bound _ (BJson v)); [cbn [handle_query forallb]; rewrite andb_true_r; reflexivity|]. apply json_storable_clean. exact H.
    + rewrite R4. reflexivity.
  - leaf (CondCompare TEq CMetadata (BJson v)).
    + apply (one_bound _ (BJson v)); [cbn [handle_query forallb]; rewrite andb_true_r; reflexivity|]. apply json_storable_clean. exact H.
    + rewrite R5. reflexivity.
  - leaf (CondCompare TEq CId (BInt id)); [reflexivity|]. rewrite R1. reflexivity.
  - leaf (CondEqAll CId (BInts [id])); [reflexivity|]. rewrite R1. cbn. rewrite orb_false_r, andb_true_r. reflexivity.
  - leaf (CondCompare TEq CStatus (BStatus (label s))); [reflexivity|]. apply spelled_label in R2.
    rewrite R2, label_eqb. reflexivity.
  - leaf (CondCompare TContains CTags (BTexts ts)).
    + apply (one_bound _ (BTexts ts)); [cbn [handle_query forallb]; rewrite andb_true_r; reflexivity|]. apply storable_all. exact H.
    + rewrite R9. reflexivity.
  - leaf (CondCompare TOverlaps CTags (BTexts ts)).
    + apply (one_bound _ (BTexts ts)); [cbn [handle_query forallb]; rewrite andb_true_r; reflexivity|]. apply storable_all. exact H.
    + rewrite R9. reflexivity.
  - leaf (CondCompare TLess CScheduledAt (BTime t)).
    + apply (one_bound _ (BTime t)); [cbn [handle_query forallb]; rewrite andb_true_r; reflexivity|]. apply bound_time_ok. exact H.
    + destruct (pg_time_kept t H) as [E _]. rewrite E, R12. reflexivity.
  - leaf (CondCompare TGreater CScheduledAt (BTime t)).
    + apply (one_bound _ (BTime t)); [cbn [handle_query forallb]; rewrite andb_true_r; reflexivity|]. apply bound_time_ok. exact H.
    + destruct (pg_time_kept t H) as [E _]. rewrite E, R12. reflexivity.
  - leaf (CondCompare TEq CScheduledAt (BTime t)).
    + apply (one_bound _ (BTime t)); [cbn [handle_query forallb]; rewrite andb_true_r; reflexivity|]. apply bound_time_ok. exact H.
    + destruct (pg_time_kept t H) as [E _]. rewrite E, R12. reflexivity.
Qed.

Lemma plain_anywhere p q : plain p q -> disjunctive q.
Proof.
  intro H. apply plain_faithful in H. destruct p; cbn in H;
    auto using single_conjunctive, conjunctive_disjunctive.
Qed.

Lemma select_plain p q rows : plain p q ->
  exists f, select_rows q rows = Some (filter f rows) /\ forall r j, represents r j -> (f r = true <-> sat q j).
Proof.
  intro H. apply plain_anywhere in H. destruct H as [ll [H1 [H2 [H3 [H4 H5]]]]].
  destruct ll as [|l ll]; [congruence|].
  destruct (parse_or_joined ll l (S (length (handle_query q))) H2) as [c [E Hc]].
  { rewrite H3. pose proof (joined_length TOr (map branch_text (l :: ll))) as Hj.
    assert (Hlen : (length (l :: ll) <= length (concat (map branch_text (l :: ll))))%nat).
    { clear -H2. induction H2 as [|x lx [Hx1 Hx2] _ IH]; [apply le_n|]. cbn [map concat]. rewrite app_length.
      assert (length (branch_text x) <> O).
      { unfold branch_text. pose proof (joined_length TAnd (texts x)). pose proof (operands_length _ Hx2).
        destruct x; [congruence|]. cbn [length] in *. lia. }
      cbn [length]. lia. }
    cbn [length] in *. lia. }
  rewrite <- H3 in E. exists (eval c). unfold select_rows, parse_where. rewrite E, H4. split; [reflexivity|].
  intros r j Hr. rewrite Hc. apply H5. exact Hr.
Qed.

(** * The order of the result *)

Section Sorting.
  Context {A : Type} (leb : A -> A -> bool).
  Hypothesis total : forall a b, leb a b = true \/ leb b a = true.
  Hypothesis trans : forall a b c, leb a b = true -> leb b c = true -> leb a c = true.

  Lemma insert_is_sorted x l : StronglySorted (fun a b => leb a b = true) l ->
    StronglySorted (fun a b => leb a b = true) (insert_sorted leb x l) /\ Permutation (x :: l) (insert_sorted leb x l).
  Proof.
    induction 1 as [|y l Hl IH Hy]; cbn; [split; [repeat constructor|reflexivity]|].
    destruct (leb x y) eqn:E.
    - split; [|reflexivity]. constructor; [constructor; assumption|]. constructor; [exact E|].
      rewrite Forall_forall in *. intros z Hz. eapply trans; [exact E|auto].
    - destruct IH as [IH1 IH2]. split.
      + constructor; [exact IH1|]. eapply Permutation_Forall; [exact IH2|]. constructor; [|exact Hy].
        destruct (total x y); congruence.
      + rewrite perm_swap. constructor. exact IH2.
  Qed.
  Lemma stable_sort_sorted l :
    StronglySorted (fun a b => leb a b = true) (stable_sort leb l) /\ Permutation l (stable_sort leb l).
  Proof.
    induction l as [|x l [IH1 IH2]]; cbn; [split; [constructor|reflexivity]|].
    destruct (insert_is_sorted x _ IH1) as [H1 H2]. split; [exact H1|]. rewrite <- H2. constructor. exact IH2.
  Qed.
End Sorting.

Lemma represents_perm l l' js : Permutation l l' -> Forall2 represents l js ->
  exists js', Forall2 represents l' js' /\ Permutation js js'.
Proof.
  intro H. revert js. induction H; intros js Hj.
  - inversion Hj; subst. exists []. auto.
  - inversion Hj as [|? j ? js0 H1 H2]; subst. destruct (IHPermutation _ H2) as [js' [H3 H4]].
    exists (j :: js'). split; constructor; assumption.
  - inversion Hj as [|? j1 ? js0 H1 H2]; subst. inversion H2 as [|? j2 ? js1 H3 H4]; subst.
    exists (j2 :: j1 :: js1). split; [constructor; [assumption|constructor; assumption]|apply perm_swap].
  - destruct (IHPermutation1 _ Hj) as [js1 [H1 H2]]. destruct (IHPermutation2 _ H1) as [js2 [H3 H4]].
    exists js2. split; [exact H3|]. etransitivity; eassumption.
Qed.
Lemma represents_filter f (g : job -> bool) l js : Forall2 represents l js ->
  (forall r j, represents r j -> f r = g j) -> Forall2 represents (filter f l) (filter g js).
Proof.
  intros H Hf. induction H as [|r j l js H _ IH]; cbn; [constructor|]. rewrite (Hf r j H).
  destruct (g j); [constructor; assumption|exact IH].
Qed.
Lemma represents_sorted (R : row -> row -> Prop) (S : job -> job -> Prop) l js :
  Forall2 represents l js -> (forall r r' j j', represents r j -> represents r' j' -> R r r' -> S j j') ->
  StronglySorted R l -> StronglySorted S js.
Proof.
  intros H HRS. induction H as [|r j l js Hr Hl IH]; intro Hs; [constructor|].
  inversion Hs as [|? ? Hs1 Hs2]; subst. constructor; [auto|].
  clear -Hs2 Hl Hr HRS. induction Hl as [|r' j' l js Hr' _ IH]; [constructor|].
  inversion Hs2; subst. constructor; [eapply HRS; eassumption|auto].
Qed.

Lemma pg_query_plain p q t js : plain p q -> holds_jobs t js ->
  exists l, pg_query q t = Ok l /\ Permutation l (filter (query_matches q) js) /\ newest_first l.
Proof.
  intros Hp Ht. destruct (select_plain p q (t_rows t) Hp) as [f [Hs Hf]]. unfold pg_query. rewrite Hs.
  assert (H1 : Forall2 represents (filter f (t_rows t)) (filter (query_matches q) js)).
  { apply represents_filter; [exact Ht|]. intros r j Hr. specialize (Hf r j Hr). rewrite <- query_matches_sat in Hf.
    destruct (f r), (query_matches q j); intuition congruence. }
  destruct (stable_sort_sorted (fun a b => r_inserted_at b <=? r_inserted_at a)) with (l := filter f (t_rows t)) as [Hs1 Hs2].
  { intros a b. rewrite !Z.leb_le. lia. }
  { intros a b c. rewrite !Z.leb_le. lia. }
  destruct (represents_perm _ _ _ Hs2 H1) as [l [Hl1 Hl2]].
  exists l. split; [apply read_rows_represents; exact Hl1|]. split; [symmetry; exact Hl2|].
  eapply represents_sorted; [exact Hl1| |exact Hs1]. cbn. intros r r' j j' Hr Hr' H. rewrite Z.leb_le in H.
  row_fields Hr. row_fields Hr'. unfold time in *. lia.
Qed.
