(** What the server selects for any query: the clause without parentheses, as it is read. *)
From Coq Require Import Permutation Sorted.
From Verif Require Import Base Chrono Types TypesProofs Query QueryProofs Memory MemSpec Samples PgRow PgQuery FxHash Pg PgSpec
  PgProofs PgQueryProofs PropsPg PropsPgRefuse.

(** * Vocabulary *)

(** A clause as it is read: alternatives, each a list of tests; [false] marks a negated test. *)
Definition reading : Type := list (list (bool * query)).

(** A [NOT] in front of a clause reaches its first test only. *)
Definition not_first (c : reading) : reading :=
  match c with
  | ((b, x) :: l) :: rest => ((negb b, x) :: l) :: rest
  | _ => c
  end.
(** An [AND] between two clauses joins the last alternative of the one and the first of the other. *)
Fixpoint and_between {A} (a b : list (list A)) : list (list A) :=
  match a, b with
  | [], _ => b
  | _, [] => a
  | [l], l' :: b' => (l ++ l') :: b'
  | l :: a', _ => l :: and_between a' b
  end.
(** An [OR] between two clauses keeps their alternatives apart. *)
Fixpoint as_read (q : query) : reading :=
  match q with
  | QNot q' => not_first (as_read q')
  | QAnd qs => fold_right and_between [] (map as_read qs)
  | QOr qs => concat (map as_read qs)
  | leaf => [[(true, leaf)]]
  end.

(** [u] is [t] to the microsecond, on the side of the year 2000. *)
Definition to_the_microsecond (t u : time) : Prop :=
  (exists k, u = k * 1000)
  /\ (946684800000000000 <= t -> u <= t < u + 1000) /\ (t <= 946684800000000000 -> t <= u < t + 1000).
(** One test: an id list asks for an id that is each of them, times are cut to the microsecond. *)
Definition passes (j : job) (leaf : query) : Prop :=
  match leaf with
  | QIdIn ids => forall id, In id ids -> j_id j = id
  | QScheduledAtBefore t => exists u, to_the_microsecond t u /\ j_scheduled_at j < u
  | QScheduledAtAfter t => exists u, to_the_microsecond t u /\ u < j_scheduled_at j
  | QScheduledAtEqual t => exists u, to_the_microsecond t u /\ j_scheduled_at j = u
  | _ => sat leaf j
  end.
Definition meets (j : job) (test : bool * query) : Prop := if fst test then passes j (snd test) else ~ passes j (snd test).
Definition read_sat (c : reading) (j : job) : Prop := exists l, In l c /\ Forall (meets j) l.

(** No empty conjunction or disjunction, and nothing the server refuses. *)
Definition asked_properly (q : query) : Prop :=
  ~ part_of (QAnd []) q /\ ~ part_of (QOr []) q /\ forall q', part_of q' q -> ~ refused_leaf q'.

(** * Lemmas *)

Definition passes_b (j : job) (leaf : query) : bool :=
  match leaf with
  | QIdIn ids => forallb (Z.eqb (j_id j)) ids
  | QScheduledAtBefore t => j_scheduled_at j <? pg_time t
  | QScheduledAtAfter t => pg_time t <? j_scheduled_at j
  | QScheduledAtEqual t => j_scheduled_at j =? pg_time t
  | _ => query_matches leaf j
  end.
Definition meets_b (j : job) (x : bool * query) : bool := Bool.eqb (fst x) (passes_b j (snd x)).

Lemma to_the_microsecond_iff t u : to_the_microsecond t u <-> u = pg_time t.
Proof.
  unfold to_the_microsecond. destruct (C64_stored_time t) as [[k Hk] [H1 H2]]. unfold time in *. split.
  - intros [[k' Hk'] [H3 H4]]. destruct (Z.le_gt_cases 946684800000000000 t) as [H|H].
    + specialize (H1 H). specialize (H3 H). lia.
    + assert (H' : t <= 946684800000000000) by lia. specialize (H2 H'). specialize (H4 H'). lia.
  - intros ->. split; [exists k; exact Hk|]. split; assumption.
Qed.
Lemma passes_iff j q : passes_b j q = true <-> passes j q.
Proof.
  assert (HT : forall t (P : time -> Prop), (exists u, to_the_microsecond t u /\ P u) <-> P (pg_time t)).
  { intros t P. split; [intros [u [H1 H2]]; apply to_the_microsecond_iff in H1; subst; exact H2|].
    intro H. exists (pg_time t). split; [apply to_the_microsecond_iff; reflexivity|exact H]. }
  destruct q; try (apply query_matches_sat); cbn [passes_b passes].
  - rewrite forallb_forall. split; intros H id Hi; specialize (H id Hi); apply Z.eqb_eq; exact H.
  - rewrite HT. apply Z.ltb_lt.
  - rewrite HT. apply Z.ltb_lt.
  - rewrite HT. apply Z.eqb_eq.
Qed.
Lemma meets_iff j x : meets_b j x = true <-> meets j x.
Proof.
  destruct x as [b q]. unfold meets_b, meets. cbn [fst snd]. rewrite eqb_true_iff. pose proof (passes_iff j q) as H.
  destruct b; split; intro H'.
  - apply H. symmetry. exact H'.
  - symmetry. apply H. exact H'.
  - intro Hp. apply H in Hp. congruence.
  - destruct (passes_b j q); [exfalso; apply H'; apply H; reflexivity|reflexivity].
Qed.

Definition like (x : list token * cond) (t : bool * query) : Prop :=
  forall r j, represents r j -> eval (snd x) r = meets_b j t.
Definition reads (ts : list token) (c : reading) : Prop :=
  exists ll, ll <> [] /\ branches ll /\ ts = joined TOr (map branch_text ll) /\ Forall2 (Forall2 like) ll c.

Lemma operand_not ts c : operand ts c -> operand (TNot :: ts) (CondNot c).
Proof. intros H rest Hr. cbn [app parse_not]. rewrite (H rest Hr). reflexivity. Qed.
Lemma reads_not ts c : reads ts c -> reads (TNot :: ts) (not_first c).
Proof.
  intros [ll [H1 [H2 [H3 H4]]]]. destruct ll as [|[|[x d] l] ll]; [congruence| |].
  { inversion H2 as [|? ? [Hl _] _]. congruence. }
  inversion H4 as [|? l' ? c' Hl Hll]; subst. inversion Hl as [|? [b t] ? l'' Hx Hl']; subst. cbn [not_first].
  exists (((TNot :: x, CondNot d) :: l) :: ll). split; [discriminate|]. inversion H2 as [|? ? [_ Ho] Hb]; subst.
  inversion Ho as [|? ? Hd Ho']; subst. split; [|split].
  - constructor; [|exact Hb]. split; [discriminate|]. constructor; [apply operand_not, Hd|exact Ho'].
  - assert (E : branch_text ((TNot :: x, CondNot d) :: l) = TNot :: branch_text ((x, d) :: l)) by (destruct l; reflexivity).
    cbn [map]. rewrite E. destruct ll; reflexivity.
  - constructor; [|exact Hll]. constructor; [|exact Hl']. intros r j Hr. specialize (Hx r j Hr). cbn [snd eval] in *. rewrite Hx.
    unfold meets_b. cbn [fst snd]. destruct b, (passes_b j t); reflexivity.
Qed.

Lemma branch_text_app (l l' : list (list token * cond)) : l <> [] -> l' <> [] -> branch_text (l ++ l') = branch_text l ++ TAnd :: branch_text l'.
Proof.
  intros H H'. unfold branch_text, texts. rewrite map_app. apply joined_app; [destruct l|destruct l']; (congruence || discriminate).
Qed.
Lemma and_between_ne {A} (a b : list (list A)) : a <> [] -> and_between a b <> [].
Proof. destruct a as [|l [|l' a]]; [congruence| |]; destruct b; discriminate. Qed.
Lemma and_between_text a : forall b, a <> [] -> b <> [] -> branches a -> branches b ->
  joined TOr (map branch_text (and_between a b)) = joined TOr (map branch_text a) ++ TAnd :: joined TOr (map branch_text b)
  /\ branches (and_between a b).
Proof.
  induction a as [|l a IH]; [congruence|]. intros b _ Hb Ba Bb. inversion Ba as [|? ? [Hl Ho] Ba']; subst.
  destruct b as [|l' b]; [congruence|]. inversion Bb as [|? ? [Hl' Ho'] Bb']; subst. destruct a as [|l2 a].
  - cbn [and_between map]. change (joined TOr [branch_text l]) with (branch_text l). rewrite branch_text_app by assumption. split.
    + destruct b as [|l3 b]; [reflexivity|]. cbn [map].
      rewrite (joined_cons TOr (branch_text l ++ TAnd :: branch_text l')) by discriminate.
      rewrite (joined_cons TOr (branch_text l')) by discriminate. rewrite <- app_assoc. reflexivity.
    + constructor; [|exact Bb']. split; [destruct l; [congruence|discriminate]|]. apply Forall_app. split; assumption.
  - destruct (IH (l' :: b)) as [E B]; [discriminate|discriminate|exact Ba'|exact Bb|].
    change (and_between (l :: l2 :: a) (l' :: b)) with (l :: and_between (l2 :: a) (l' :: b)). split; [|constructor; [split|]; assumption].
    cbn [map]. rewrite joined_cons.
    2:{ intro K. apply map_eq_nil in K. apply (and_between_ne (l2 :: a) (l' :: b)) in K; [exact K|discriminate]. }
    rewrite E. rewrite (joined_cons TOr (branch_text l)) by discriminate. cbn [map]. rewrite <- app_assoc. reflexivity.
Qed.
Lemma and_between_like {A B} (R : A -> B -> Prop) a a' : Forall2 (Forall2 R) a a' -> forall b b', Forall2 (Forall2 R) b b' ->
  Forall2 (Forall2 R) (and_between a b) (and_between a' b').
Proof.
  induction 1 as [|l l' a a' Hl Ha IH]; intros b b' Hb; [destruct Hb; [constructor|constructor; assumption]|].
  destruct Hb as [|m m' b b' Hm Hb].
  { destruct Ha; constructor; try assumption; constructor; assumption. }
  destruct Ha as [|n n' a a' Hn Ha].
  - constructor; [apply Forall2_app; assumption|exact Hb].
  - change (Forall2 (Forall2 R) (l :: and_between (n :: a) (m :: b)) (l' :: and_between (n' :: a') (m' :: b'))).
    constructor; [exact Hl|]. apply IH. constructor; assumption.
Qed.
Lemma and_between_nil {A} (a : list (list A)) : and_between a [] = a.
Proof. destruct a as [|l [|l' a]]; reflexivity. Qed.

Lemma reads_and tss cs : Forall2 reads tss cs -> tss <> [] -> reads (joined TAnd tss) (fold_right and_between [] cs).
Proof.
  induction 1 as [|ts c tss cs H Hs IH]; [congruence|]. intros _. destruct tss as [|t2 tss].
  - inversion Hs; subst. cbn [joined fold_right]. rewrite and_between_nil. exact H.
  - rewrite joined_cons by discriminate. destruct IH as [ll [L1 [L2 [L3 L4]]]]; [discriminate|].
    destruct H as [ll1 [M1 [M2 [M3 M4]]]]. exists (and_between ll1 ll). split; [apply and_between_ne, M1|].
    destruct (and_between_text ll1 ll M1 L1 M2 L2) as [E B]. split; [exact B|]. split; [rewrite E, L3, M3; reflexivity|].
    cbn [fold_right]. apply and_between_like; assumption.
Qed.
Lemma reads_or tss cs : Forall2 reads tss cs -> tss <> [] -> reads (joined TOr tss) (concat cs).
Proof.
  induction 1 as [|ts c tss cs H Hs IH]; [congruence|]. intros _. destruct tss as [|t2 tss].
  - inversion Hs; subst. cbn [joined concat]. rewrite app_nil_r. exact H.
  - rewrite joined_cons by discriminate. destruct IH as [ll [L1 [L2 [L3 L4]]]]; [discriminate|].
    destruct H as [ll1 [M1 [M2 [M3 M4]]]]. exists (ll1 ++ ll). split; [destruct ll1; [congruence|discriminate]|].
    split; [apply Forall_app; split; assumption|]. split.
    + rewrite map_app, joined_app; [rewrite L3, M3; reflexivity| |]; intro K; apply map_eq_nil in K; congruence.
    + cbn [concat]. apply Forall2_app; assumption.
Qed.
Lemma reads_leaf q c : operand (handle_query q) c -> as_read q = [[(true, q)]] ->
  (forall r j, represents r j -> eval c r = passes_b j q) -> reads (handle_query q) (as_read q).
Proof.
  intros H1 E H2. exists [[(handle_query q, c)]]. split; [discriminate|]. split.
  { constructor; [|constructor]. split; [discriminate|]. constructor; [exact H1|constructor]. }
  split; [reflexivity|]. rewrite E. constructor; [|constructor]. constructor; [|constructor]. intros r j Hr.
  unfold meets_b. cbn [fst snd]. rewrite (H2 r j Hr). destruct (passes_b j q); reflexivity.
Qed.

Fixpoint query_reads (q : query) : ~ part_of (QAnd []) q -> ~ part_of (QOr []) q -> reads (handle_query q) (as_read q).
Proof.
  assert (Hlist : forall qs, (forall x, In x qs -> ~ part_of (QAnd []) x /\ ~ part_of (QOr []) x) ->
    Forall2 reads (map handle_query qs) (map as_read qs)).
  { intros qs. induction qs as [|q0 qs IH]; intro H; [constructor|]. constructor.
    - destruct (H q0 (or_introl eq_refl)) as [H1 H2]. exact (query_reads q0 H1 H2).
    - apply IH. intros y Hy. apply H. right. exact Hy. }
  intros Ha Ho. destruct q as [inner|qs|qs|e|d|m|id|ids|s|ts|ts|t|t|t].
  - apply reads_not, query_reads; intro H; [apply Ha|apply Ho]; apply po_not, H.
  - cbn [handle_query as_read]. apply reads_and.
    + apply Hlist. intros x Hx. split; intro H; [apply Ha|apply Ho]; exact (po_and _ x qs Hx H).
    + destruct qs; [exfalso; apply Ha; constructor|discriminate].
  - cbn [handle_query as_read]. apply reads_or.
    + apply Hlist. intros x Hx. split; intro H; [apply Ha|apply Ho]; exact (po_or _ x qs Hx H).
    + destruct qs; [exfalso; apply Ho; constructor|discriminate].
  - apply (reads_leaf _ (CondCompare TEq CExecutor (BText e))); [intros rest Hst; destruct Hst; reflexivity|reflexivity|].
    intros r j Hr. row_fields Hr. cbn. rewrite R3. reflexivity.
  - apply (reads_leaf _ (CondCompare TEq CData (BJson d))); [intros rest Hst; destruct Hst; reflexivity|reflexivity|].
    intros r j Hr. row_fields Hr. cbn. rewrite R4. reflexivity.
  - apply (reads_leaf _ (CondCompare TEq CMetadata (BJson m))); [intros rest Hst; destruct Hst; reflexivity|reflexivity|].
    intros r j Hr. row_fields Hr. cbn. rewrite R5. reflexivity.
  - apply (reads_leaf _ (CondCompare TEq CId (BInt id))); [intros rest Hst; destruct Hst; reflexivity|reflexivity|].
    intros r j Hr. row_fields Hr. cbn. rewrite R1. reflexivity.
  - apply (reads_leaf _ (CondEqAll CId (BInts ids))); [intros rest Hst; destruct Hst; reflexivity|reflexivity|].
    intros r j Hr. row_fields Hr. cbn [eval passes_b]. rewrite R1. reflexivity.
  - apply (reads_leaf _ (CondCompare TEq CStatus (BStatus (label s)))); [intros rest Hst; destruct Hst; reflexivity|reflexivity|].
    intros r j Hr. row_fields Hr. apply spelled_label in R2. cbn [eval compare_row passes_b query_matches]. rewrite R2, label_eqb. reflexivity.
  - apply (reads_leaf _ (CondCompare TContains CTags (BTexts ts))); [intros rest Hst; destruct Hst; reflexivity|reflexivity|].
    intros r j Hr. row_fields Hr. cbn. rewrite R9. reflexivity.
  - apply (reads_leaf _ (CondCompare TOverlaps CTags (BTexts ts))); [intros rest Hst; destruct Hst; reflexivity|reflexivity|].
    intros r j Hr. row_fields Hr. cbn. rewrite R9. reflexivity.
  - apply (reads_leaf _ (CondCompare TLess CScheduledAt (BTime t))); [intros rest Hst; destruct Hst; reflexivity|reflexivity|].
    intros r j Hr. row_fields Hr. cbn [eval compare_row passes_b]. rewrite R12. reflexivity.
  - apply (reads_leaf _ (CondCompare TGreater CScheduledAt (BTime t))); [intros rest Hst; destruct Hst; reflexivity|reflexivity|].
    intros r j Hr. row_fields Hr. cbn [eval compare_row passes_b]. rewrite R12. reflexivity.
  - apply (reads_leaf _ (CondCompare TEq CScheduledAt (BTime t))); [intros rest Hst; destruct Hst; reflexivity|reflexivity|].
    intros r j Hr. row_fields Hr. cbn [eval compare_row passes_b]. rewrite R12. reflexivity.
Qed.

Lemma reads_where ts c : reads ts c ->
  exists d, parse_where ts = Some d /\ forall r j, represents r j -> (eval d r = true <-> read_sat c j).
Proof.
  intros [ll [H1 [H2 [H3 H4]]]]. destruct ll as [|l ll]; [congruence|].
  destruct (parse_or_joined ll l (S (length ts)) H2) as [d [E Hd]].
  { rewrite H3. pose proof (joined_length TOr (map branch_text (l :: ll))) as Hj.
    assert (Hlen : (length (l :: ll) <= length (concat (map branch_text (l :: ll))))%nat).
    { clear -H2. induction H2 as [|x lx [Hx1 Hx2] _ IH]; [apply le_n|]. cbn [map concat]. rewrite app_length.
      assert (length (branch_text x) <> O).
      { unfold branch_text. pose proof (joined_length TAnd (texts x)). pose proof (operands_length _ Hx2).
        destruct x; [congruence|]. cbn [length] in *. lia. }
      cbn [length]. lia. }
    cbn [length] in *. lia. }
  rewrite <- H3 in E. exists d. unfold parse_where. rewrite E. split; [reflexivity|]. intros r j Hr. rewrite Hd. clear -H4 Hr. revert H4. generalize (l :: ll). clear l ll. intros ll H4.
  assert (Hb : forall b b', Forall2 like b b' -> ((forall x, In x b -> eval (snd x) r = true) <-> Forall (meets j) b')).
  { induction 1 as [|x y b b' Hx _ IH]; [split; [constructor|intros _ ? []]|]. specialize (Hx r j Hr). rewrite Forall_cons_iff, <- IH, <- meets_iff, <- Hx.
    split; [intro H; split; [apply H; left; reflexivity|intros; apply H; right; assumption]|]. intros [Ha Hb] z [<-|Hz]; auto. }
  unfold read_sat. induction H4 as [|b b' ll1 c1 Hbb _ IH]; [split; intros [x [[] _]]|]. specialize (Hb _ _ Hbb). split.
  - intros [x [[<-|Hx] H]]; [exists b'; split; [left; reflexivity|apply Hb, H]|].
    destruct IH as [IH _]. destruct IH as [y [Hy Hm]]; [exists x; auto|]. exists y. split; [right; exact Hy|exact Hm].
  - intros [x [[<-|Hx] H]]; [exists b; split; [left; reflexivity|apply Hb, H]|].
    destruct IH as [_ IH]. destruct IH as [y [Hy Hm]]; [exists x; auto|]. exists y. split; [right; exact Hy|exact Hm].
Qed.

Lemma filter_held f (P : job -> Prop) l js : Forall2 represents l js -> (forall r j, represents r j -> (f r = true <-> P j)) ->
  exists js', Forall2 represents (filter f l) js' /\ exactly_removed (fun j => ~ P j) js js'.
Proof.
  intros H Hf. induction H as [|r j l js H _ [js' [IH1 [IH2 IH3]]]]; [exists []; split; [constructor|split; [constructor|intros ? []]]|].
  cbn [filter]. specialize (Hf r j H). destruct (f r).
  - exists (j :: js'). split; [constructor; assumption|]. split; [constructor; exact IH2|]. intros x [<-|Hx]; [|auto]. intro K. apply K, Hf. reflexivity.
  - exists js'. split; [exact IH1|]. split; [|exact IH3]. apply ret_drop; [|exact IH2]. intro K. apply Hf in K. discriminate.
Qed.

(** * C51 *)

(** Every query without empty parts selects what its clause says when read without parentheses. *)
Theorem C51_as_read : forall ident now q t js,
  asked_properly q -> holds_jobs t js ->
  exists l kept, pg_step ident now t (OpQuery q) = (t, RJobs (Ok l))
    /\ Permutation l kept /\ exactly_removed (fun j => ~ read_sat (as_read q) j) js kept /\ newest_first l.
Proof.
  intros ident now q t js [Ha [Ho Hr]] Ht. destruct (reads_where _ _ (query_reads q Ha Ho)) as [d [Ed Hd]].
  destruct (filter_held (eval d) (read_sat (as_read q)) (t_rows t) js Ht Hd) as [kept [H1 H2]].
  destruct (stable_sort_sorted (fun a b => r_inserted_at b <=? r_inserted_at a)) with (l := filter (eval d) (t_rows t)) as [Hs1 Hs2].
  { intros a b. rewrite !Z.leb_le. lia. }
  { intros a b c. rewrite !Z.leb_le. lia. }
  destruct (represents_perm _ _ _ Hs2 H1) as [l [Hl1 Hl2]]. exists l, kept. cbn [pg_step].
  assert (Eb : bounds_ok (handle_query q) = true).
  { destruct (bounds_ok (handle_query q)) eqn:E; [reflexivity|]. destruct (query_bounds q E) as [q' [K1 K2]]. exfalso. exact (Hr q' K1 K2). }
  unfold pg_query, select_rows. rewrite Ed, Eb, (read_rows_represents _ _ Hl1). split; [reflexivity|].
  split; [symmetry; exact Hl2|]. split; [exact H2|].
  eapply represents_sorted; [exact Hl1| |exact Hs1]. cbn. intros r r' j j' Hrj Hrj' H. rewrite Z.leb_le in H.
  row_fields Hrj. row_fields Hrj'. unfold time in *. lia.
Qed.
Print Assumptions C51_as_read.

(** A test for examples. *)
Fixpoint fits (q : query) : bool :=
  match q with
  | QNot q' => fits q'
  | QAnd [] | QOr [] => false
  | QAnd qs | QOr qs => forallb fits qs
  | leaf => bounds_ok (handle_query leaf)
  end.
Lemma fits_properly q : fits q = true -> asked_properly q.
Proof.
  assert (Hp : forall q' q, part_of q' q -> fits q = true -> fits q' = true).
  { induction 1 as [|q0 _ IH|q0 qs Hi _ IH|q0 qs Hi _ IH]; intro H; auto; apply IH;
      (destruct qs as [|q1 qs]; [destruct Hi|]); cbn [fits] in H; rewrite forallb_forall in H; apply H; exact Hi. }
  intro H. split; [intro K; apply Hp in K; [discriminate|exact H]|]. split; [intro K; apply Hp in K; [discriminate|exact H]|].
  intros q' K L. pose proof (Hp q' q K H) as F. assert (B : bounds_ok (handle_query q') = false).
  { destruct L; cbn [handle_query bounds_ok forallb bound_ok]; rewrite andb_true_r.
    - apply not_true_is_false. intro E. apply storable_clean in E. auto.
    - apply not_true_is_false. intro E. apply json_storable_clean in E. auto.
    - apply not_true_is_false. intro E. apply json_storable_clean in E. auto.
    - apply not_true_is_false. intro E. apply storable_all in E. rewrite Forall_forall in E. auto.
    - apply not_true_is_false. intro E. apply storable_all in E. rewrite Forall_forall in E. auto.
    - apply early_refused. assumption.
    - apply early_refused. assumption.
    - apply early_refused. assumption. }
  destruct L; cbn [fits] in F; congruence.
Qed.

(** Two alternatives, a negation that reaches one test only, an id list, and times between two
    microseconds. *)
Definition q_odd : query :=
  QOr [QNot (QAnd [QExecutorEqual mail; QScheduledAtAfter (8 * ms + 1)]); QIdIn [1; 2]].
Example C51_as_read_example :
  asked_properly q_odd
  /\ as_read q_odd = [[(false, QExecutorEqual mail); (true, QScheduledAtAfter (8 * ms + 1))]; [(true, QIdIn [1; 2])]]
  /\ holds_jobs t_sample js_sample
  /\ as_read (QAnd [QOr [QIdEquals 1; QIdEquals 2]; QOr [QIdEquals 3; QIdEquals 4]])
     = [[(true, QIdEquals 1)]; [(true, QIdEquals 2); (true, QIdEquals 3)]; [(true, QIdEquals 4)]].
Proof. split; [apply fits_properly; vm_compute; reflexivity|]. split; [reflexivity|]. split; [exact sample_holds|reflexivity]. Qed.

(** The server reads a clause as a condition only if the whole clause is the text of that condition:
    comparisons, [NOT] in front of one, joined by [AND], these joined by [OR]. *)
Inductive compare_text : cond -> list token -> Prop :=
| ct_all c b : compare_text (CondEqAll c b) [TCol c; TEq; TAll; TBind b; TClose]
| ct_array op c b : op = TContains \/ op = TOverlaps ->
    compare_text (CondCompare op c b) [TCol c; op; TBind b; TVarchars]
| ct_plain op c b : op = TEq \/ op = TLess \/ op = TGreater ->
    compare_text (CondCompare op c b) [TCol c; op; TBind b].
Inductive not_text : cond -> list token -> Prop :=
| nt_compare c ts : compare_text c ts -> not_text c ts
| nt_not c ts : not_text c ts -> not_text (CondNot c) (TNot :: ts).
Inductive and_text : cond -> list token -> Prop :=
| at_one c ts : not_text c ts -> and_text c ts
| at_and c ts c' ts' : not_text c ts -> and_text c' ts' -> and_text (CondAnd c c') (ts ++ TAnd :: ts').
Inductive or_text : cond -> list token -> Prop :=
| ot_one c ts : and_text c ts -> or_text c ts
| ot_or c ts c' ts' : and_text c ts -> or_text c' ts' -> or_text (CondOr c c') (ts ++ TOr :: ts').

Lemma compare_sound ts c rest : parse_compare ts = Some (c, rest) -> exists pre, ts = pre ++ rest /\ compare_text c pre.
Proof.
  intro H.
  assert (Hs : (exists col b, ts = [TCol col; TEq; TAll; TBind b; TClose] ++ rest /\ c = CondEqAll col b)
    \/ (exists op col b, ts = [TCol col; op; TBind b; TVarchars] ++ rest /\ c = CondCompare op col b
         /\ (op = TContains \/ op = TOverlaps))
    \/ (exists op col b, ts = [TCol col; op; TBind b] ++ rest /\ c = CondCompare op col b
         /\ (op = TEq \/ op = TLess \/ op = TGreater))).
  { unfold parse_compare in H.
    repeat match type of H with
    | match ?x with _ => _ end = _ => destruct x; try discriminate
    end; injection H as <- <-; cbn; eauto 12. }
  destruct Hs as [[col [b [-> ->]]]|[[op [col [b [-> [-> Ho]]]]]|[op [col [b [-> [-> Ho]]]]]]];
    eexists; (split; [reflexivity|constructor; exact Ho]) || (split; [reflexivity|constructor]).
Qed.
Lemma not_sound ts : forall c rest, parse_not ts = Some (c, rest) -> exists pre, ts = pre ++ rest /\ not_text c pre.
Proof.
  assert (Hbase : forall ts c rest, parse_compare ts = Some (c, rest) -> exists pre, ts = pre ++ rest /\ not_text c pre).
  { intros ts' c rest H. destruct (compare_sound _ _ _ H) as [pre [H1 H2]]. exists pre. split; [exact H1|constructor; exact H2]. }
  induction ts as [|x ts IH]; intros c rest H; [discriminate|].
  destruct x; try exact (Hbase _ _ _ H). cbn [parse_not] in H.
  destruct (parse_not ts) as [[c' rest']|] eqn:E; [|discriminate]. injection H as <- <-.
  destruct (IH _ _ eq_refl) as [pre [-> H2]]. exists (TNot :: pre). split; [reflexivity|constructor; exact H2].
Qed.
Lemma and_sound fuel : forall ts c rest, parse_and fuel ts = Some (c, rest) -> exists pre, ts = pre ++ rest /\ and_text c pre.
Proof.
  induction fuel as [|fuel IH]; intros ts c rest H; [discriminate|]. cbn [parse_and] in H.
  destruct (parse_not ts) as [[c1 r1]|] eqn:E; [|discriminate]. destruct (not_sound _ _ _ E) as [pre [-> Hp]].
  assert (Hone : Some (c1, r1) = Some (c, rest) -> exists pre0, pre ++ r1 = pre0 ++ rest /\ and_text c pre0).
  { intro H0. injection H0 as <- <-. exists pre. split; [reflexivity|constructor; exact Hp]. }
  destruct r1 as [|[] r1]; try exact (Hone H).
  destruct (parse_and fuel r1) as [[c2 r2]|] eqn:E2; [|discriminate]. injection H as <- <-.
  destruct (IH _ _ _ E2) as [pre2 [-> H2]]. exists (pre ++ TAnd :: pre2).
  split; [rewrite <- app_assoc; reflexivity|constructor; assumption].
Qed.
Lemma or_sound fuel : forall ts c rest, parse_or fuel ts = Some (c, rest) -> exists pre, ts = pre ++ rest /\ or_text c pre.
Proof.
  induction fuel as [|fuel IH]; intros ts c rest H; [discriminate|]. cbn [parse_or] in H.
  destruct (parse_and (S (length ts)) ts) as [[c1 r1]|] eqn:E; [|discriminate]. destruct (and_sound _ _ _ _ E) as [pre [-> Hp]].
  assert (Hone : Some (c1, r1) = Some (c, rest) -> exists pre0, pre ++ r1 = pre0 ++ rest /\ or_text c pre0).
  { intro H0. injection H0 as <- <-. exists pre. split; [reflexivity|constructor; exact Hp]. }
  destruct r1 as [|[] r1]; try exact (Hone H).
  destruct (parse_or fuel r1) as [[c2 r2]|] eqn:E2; [|discriminate]. injection H as <- <-.
  destruct (IH _ _ _ E2) as [pre2 [-> H2]]. exists (pre ++ TOr :: pre2).
  split; [rewrite <- app_assoc; reflexivity|constructor; assumption].
Qed.
Theorem C51_whole_clause : forall ts c, parse_where ts = Some c -> or_text c ts.
Proof.
  intros ts c H. unfold parse_where in H.
  destruct (parse_or (S (length ts)) ts) as [[c' [|x rest]]|] eqn:E; try discriminate. injection H as ->.
  destruct (or_sound _ _ _ _ E) as [pre [-> Hp]]. rewrite app_nil_r. exact Hp.
Qed.
Print Assumptions C51_whole_clause.

Example C51_whole_clause_example :
  parse_where (handle_query (QOr [QAnd [QNot (QIdEquals 1); QIdIn [2; 3]]; QTagsAllOf ["a"%string]])) <> None
  /\ parse_where (handle_query (QIdEquals 1) ++ handle_query (QIdEquals 2)) = None.
Proof. split; [discriminate|reflexivity]. Qed.

(** * C24 *)

(** The job is shown to executor [ex] asking [q]: it meets an alternative of the clause, and it is the
    executor's own, or the alternative is not the one the executor's name is attached to: the last one
    of a conjunction, the first one of anything else. *)
Definition is_conjunction (q : query) : bool := match q with QAnd _ => true | _ => false end.
Definition shown (q : query) (ex : string) (j : job) : Prop :=
  exists a l b, as_read q = a ++ l :: b /\ Forall (meets j) l
    /\ (j_executor j = ex \/ if is_conjunction q then b <> [] else a <> []).

Lemma and_between_assoc {A} (a : list (list A)) : forall b c, and_between a (and_between b c) = and_between (and_between a b) c.
Proof.
  induction a as [|l a IH]; intros b c; [reflexivity|]. destruct b as [|m b]; [rewrite (and_between_nil (l :: a)); reflexivity|].
  destruct c as [|n c]; [rewrite !and_between_nil; reflexivity|]. destruct a as [|l2 a].
  - destruct b as [|m2 b]; cbn [and_between]; [rewrite app_assoc; reflexivity|reflexivity].
  - change (and_between (l :: l2 :: a) (m :: b)) with (l :: and_between (l2 :: a) (m :: b)).
    specialize (IH (m :: b) (n :: c)). destruct (and_between (m :: b) (n :: c)) as [|x y] eqn:E.
    { exfalso. apply (and_between_ne (m :: b) (n :: c)) in E; [exact E|discriminate]. }
    change (and_between (l :: l2 :: a) (x :: y)) with (l :: and_between (l2 :: a) (x :: y)). rewrite IH.
    destruct (and_between (l2 :: a) (m :: b)) as [|u v] eqn:E2.
    { exfalso. apply (and_between_ne (l2 :: a) (m :: b)) in E2; [exact E2|discriminate]. }
    reflexivity.
Qed.
Lemma and_between_last {A} (a : list (list A)) l m : and_between (a ++ [l]) [m] = a ++ [l ++ m].
Proof.
  induction a as [|x a IH]; [reflexivity|]. cbn [app]. destruct (a ++ [l]) as [|y z] eqn:E; [destruct a; discriminate|].
  change (and_between (x :: y :: z) [m]) with (x :: and_between (y :: z) [m]). rewrite IH. reflexivity.
Qed.
Lemma fold_between_app {A} (cs : list (list (list A))) x :
  fold_right and_between [] (cs ++ [x]) = and_between (fold_right and_between [] cs) x.
Proof.
  induction cs as [|c cs IH]; cbn [app fold_right]; [apply and_between_nil|]. rewrite IH. apply and_between_assoc.
Qed.

Lemma as_read_ne q : ~ part_of (QAnd []) q -> ~ part_of (QOr []) q -> as_read q <> [].
Proof.
  intros Ha Ho. destruct (query_reads q Ha Ho) as [ll [H1 [_ [_ H]]]]. intro E. rewrite E in H. inversion H. congruence.
Qed.
Lemma read_for_executor q ex j : ~ part_of (QAnd []) q -> ~ part_of (QOr []) q ->
  (read_sat (as_read (for_executor q ex)) j <-> shown q ex j).
Proof.
  intros Ha Ho. pose proof (as_read_ne q Ha Ho) as Hne. set (e := (true, QExecutorEqual ex)).
  assert (He : meets j e <-> j_executor j = ex).
  { unfold meets, e; cbn [fst snd passes]. split; [intro H; inversion H; assumption|constructor; assumption]. }
  destruct (is_conjunction q) eqn:Ec; unfold shown; rewrite Ec.
  - destruct q as [|qs| | | | | | | | | | | |]; try discriminate. clear Ec.
    assert (Er : as_read (for_executor (QAnd qs) ex) = and_between (as_read (QAnd qs)) [[e]]).
    { cbn [for_executor as_read]. rewrite map_app. apply fold_between_app. }
    rewrite Er. destruct (exists_last Hne) as [a [l El]]. rewrite El, and_between_last. clear -He. unfold read_sat. split.
    + intros [x [Hx Hm]]. apply in_app_or in Hx. destruct Hx as [Hx|[<-|[]]].
      * apply in_split in Hx. destruct Hx as [a1 [a2 ->]]. exists a1, x, (a2 ++ [l]). split; [rewrite <- app_assoc; reflexivity|].
        split; [exact Hm|]. right. destruct a2; discriminate.
      * exists a, l, []. apply Forall_app in Hm. destruct Hm as [Hm1 Hm2]. split; [reflexivity|]. split; [exact Hm1|]. left. apply He.
        inversion Hm2; assumption.
    + intros [a1 [x [b [E [Hm Hor]]]]]. destruct b as [|b0 b].
      * apply app_inj_tail in E. destruct E as [-> ->]. exists (x ++ [e]). split; [apply in_or_app; right; left; reflexivity|].
        apply Forall_app. split; [exact Hm|]. constructor; [|constructor]. apply He. destruct Hor as [H|H]; [exact H|congruence].
      * assert (Hx : In x (a ++ [l])) by (rewrite E; apply in_or_app; right; left; reflexivity).
        exists x. split; [|exact Hm]. apply in_or_app. left.
        destruct (@exists_last _ (b0 :: b)) as [b1 [z Ez]]; [discriminate|]. rewrite Ez in E. rewrite app_comm_cons, app_assoc in E.
        apply app_inj_tail in E. destruct E as [-> _]. apply in_or_app. right. left. reflexivity.
  - assert (Er : as_read (for_executor q ex) = and_between [[e]] (and_between (as_read q) [])).
    { destruct q; try discriminate; reflexivity. }
    rewrite Er, and_between_nil. destruct (as_read q) as [|l ll]; [congruence|]. cbn [and_between]. clear -He. unfold read_sat. split.
    + intros [x [[<-|Hx] Hm]].
      * exists [], l, ll. split; [reflexivity|]. inversion Hm; subst. split; [assumption|]. left. apply He. assumption.
      * apply in_split in Hx. destruct Hx as [a1 [a2 ->]]. exists (l :: a1), x, a2. split; [reflexivity|]. split; [exact Hm|]. right. discriminate.
    + intros [a1 [x [b [E [Hm Hor]]]]]. destruct a1 as [|a0 a1]; cbn [app] in E; injection E as -> ->.
      * exists (e :: x). split; [left; reflexivity|]. constructor; [|exact Hm]. apply He. destruct Hor as [H|H]; [exact H|congruence].
      * exists x. split; [right; apply in_or_app; right; left; reflexivity|exact Hm].
Qed.

(** What the jobs of executor [ex] are taken to be. *)
Theorem C24_executor_query_postgres_exact : forall ident now q ex t js,
  asked_properly q -> clean ex -> holds_jobs t js ->
  exists l kept, pg_step ident now t (OpQuery (for_executor q ex)) = (t, RJobs (Ok l))
    /\ Permutation l kept /\ exactly_removed (fun j => ~ shown q ex j) js kept.
Proof.
  intros ident now q ex t js [Ha [Ho Hr]] Hex Ht.
  assert (Hp : asked_properly (for_executor q ex)).
  { assert (Hpart : forall q', part_of q' (for_executor q ex) -> q' = for_executor q ex \/ q' = QExecutorEqual ex \/ part_of q' q).
    { intros q' H. destruct q; cbn [for_executor] in H |- *; inversion H as [|? ?|y qs' Hy Hy'|? ?]; subst; auto;
        try (apply in_app_or in Hy); repeat (destruct Hy as [Hy|Hy]; try subst y); auto;
        try (inversion Hy'; subst; auto; fail); try (destruct Hy; fail).
      all: right; right; eapply po_and; eassumption. }
    assert (Hne : for_executor q ex <> QAnd [] /\ for_executor q ex <> QOr [] /\ ~ refused_leaf (for_executor q ex)).
    { destruct q; cbn [for_executor]; (split; [|split; [discriminate|intro K; inversion K]]); try discriminate. destruct qs; discriminate. }
    split; [|split].
    - intro K. apply Hpart in K. destruct K as [K|[K|K]]; [destruct Hne; congruence|discriminate|exact (Ha K)].
    - intro K. apply Hpart in K. destruct K as [K|[K|K]]; [destruct Hne as [_ [Hne _]]; congruence|discriminate|exact (Ho K)].
    - intros q' K. apply Hpart in K. destruct K as [->|[->|K]]; [tauto| |exact (Hr q' K)]. intro K; inversion K; auto. }
  destruct (C51_as_read ident now (for_executor q ex) t js Hp Ht) as [l [kept [H1 [H2 [[H3 H4] _]]]]].
  exists l, kept. split; [exact H1|]. split; [exact H2|]. split.
  - clear H4 H1 H2 Ht. induction H3 as [|x l0 l1 H IH|x l0 l1 Hx H IH]; [constructor|constructor; exact IH|].
    apply ret_drop; [|exact IH]. rewrite <- read_for_executor by assumption. exact Hx.
  - intros x Hx Hs. apply (H4 x Hx). rewrite read_for_executor by assumption. exact Hs.
Qed.
Print Assumptions C24_executor_query_postgres_exact.

(** The third job is not of [mail] but shown to it, unless the order of the alternatives is changed. *)
Example C24_executor_query_postgres_exact_example :
  let q := QOr [QIdEquals 1; QStatusEqual Complete] in
  let q' := QOr [QStatusEqual Complete; QIdEquals 1] in
  asked_properly q /\ asked_properly (QAnd [q]) /\ clean mail
  /\ exists j, In j js_sample /\ j_executor j = push /\ shown q mail j /\ ~ shown q' mail j
       /\ shown (QAnd [q']) mail j /\ ~ shown (QAnd [q]) mail j.
Proof.
  cbv zeta. split; [apply fits_properly; reflexivity|]. split; [apply fits_properly; reflexivity|].
  split; [apply clean_by_storable; reflexivity|].
  destruct js_sample as [|j1 [|j2 [|j3 [|]]]] eqn:E; try (vm_compute in E; discriminate).
  assert (H : j_executor j3 = push /\ j_status j3 = Complete /\ j_id j3 = 3).
  { assert (K : nth_error js_sample 2 = Some j3) by (rewrite E; reflexivity). vm_compute in K. injection K as <-. repeat split. }
  destruct H as [H1 [H2 H3]]. exists j3. split; [cbn; auto|]. split; [exact H1|].
  assert (Y : Forall (meets j3) [(true, QStatusEqual Complete)]) by (constructor; [constructor; exact H2|constructor]).
  assert (N : ~ Forall (meets j3) [(true, QIdEquals 1)]).
  { intro K. inversion K as [|? ? L _]; subst. inversion L; subst. congruence. }
  split; [exists [[(true, QIdEquals 1)]], [(true, QStatusEqual Complete)], []; split; [reflexivity|]; split; [exact Y|right; discriminate]|].
  split.
  { intros [a [l [b [K [L [M|M]]]]]]; [rewrite H1 in M; discriminate|]. cbn in K.
    destruct a as [|a0 [|a1 a]]; [apply M; reflexivity| |]; injection K; intros; subst; [exact (N L)|destruct a; discriminate]. }
  split; [exists [], [(true, QStatusEqual Complete)], [[(true, QIdEquals 1)]]; split; [reflexivity|]; split; [exact Y|right; discriminate]|].
  intros [a [l [b [K [L [M|M]]]]]]; [rewrite H1 in M; discriminate|]. cbn in K.
  destruct a as [|a0 [|a1 a]]; injection K; intros; subst; [exact (N L)|apply M; reflexivity|destruct a; discriminate].
Qed.
