(** No job is held by two workers, except through releases from outside and conflicting enqueues. *)
From Coq Require Import Lia Permutation.
From Verif Require Import Base Chrono Types Query Memory MemSpec MemProofs MemNotify MemConc MemConcSpec MemConcProofs MemConcThms MemWake Codec Builder
  Runner RunnerSpec WorkerProofs Ticker Pruner ApiProofs App AppSpec AppProofs World WorldSpec WorldProofs WorldInv WorldThms.

(** * Counting *)
Definition cnt {A} (P : A -> bool) (l : list A) : nat := length (filter P l).
Lemma cnt_app {A} (P : A -> bool) l l' : cnt P (l ++ l') = (cnt P l + cnt P l')%nat.
Proof. unfold cnt. now rewrite filter_app, app_length. Qed.
Lemma cnt_cons {A} (P : A -> bool) x l : cnt P (x :: l) = ((if P x then 1 else 0) + cnt P l)%nat.
Proof. unfold cnt. cbn. destruct (P x); reflexivity. Qed.
Lemma cnt_perm {A} (P : A -> bool) l l' : Permutation l l' -> cnt P l = cnt P l'.
Proof. induction 1; rewrite ?cnt_cons in *; try lia; congruence. Qed.
Lemma cnt_map {A B} (P : B -> bool) (f : A -> B) l : cnt P (map f l) = cnt (fun x => P (f x)) l.
Proof. induction l as [|x l IH]; [reflexivity|]. cbn [map]. rewrite !cnt_cons, IH. reflexivity. Qed.
Lemma cnt_le {A} (P Q : A -> bool) l : (forall x, P x = true -> Q x = true) -> (cnt P l <= cnt Q l)%nat.
Proof.
  intro H. induction l as [|x l IH]; [reflexivity|]. rewrite !cnt_cons. specialize (H x).
  destruct (P x); [rewrite H by reflexivity; lia|]. destruct (Q x); lia.
Qed.
Lemma cnt_le_in {A} (P Q : A -> bool) l : (forall x, In x l -> P x = true -> Q x = true) -> (cnt P l <= cnt Q l)%nat.
Proof.
  intro H. induction l as [|x l IH]; [reflexivity|]. rewrite !cnt_cons. specialize (IH (fun y Hy => H y (or_intror Hy))).
  specialize (H x (or_introl eq_refl)). destruct (P x); [rewrite H by reflexivity; lia|]. destruct (Q x); lia.
Qed.
Lemma cnt_none {A} (P : A -> bool) l : (forall x, In x l -> P x = false) -> cnt P l = 0%nat.
Proof.
  intro H. induction l as [|x l IH]; [reflexivity|]. rewrite cnt_cons, (H x (or_introl eq_refl)), IH; [reflexivity|].
  intros y Hy. apply H. right. exact Hy.
Qed.
Lemma cnt_flat {A B} (P : B -> bool) (f : A -> list B) l : cnt P (flat_map f l) = list_sum (map (fun x => cnt P (f x)) l).
Proof. induction l as [|x l IH]; [reflexivity|]. cbn [flat_map map list_sum fold_right]. rewrite cnt_app, IH. reflexivity. Qed.

(** If between any two [P]s there is a [Q], there is at most one more [P] than [Q]s. *)
Lemma between {A} (P Q : A -> bool) l :
  (forall a x b y c, l = a ++ x :: b ++ y :: c -> P x = true -> P y = true -> exists z, In z b /\ Q z = true) ->
  (cnt P l <= 1 + cnt Q l)%nat.
Proof.
  intro H.
  assert (G : forall n a x t, (length t <= n)%nat -> l = a ++ x :: t -> P x = true -> (cnt P (x :: t) <= 1 + cnt Q t)%nat).
  { induction n as [|n IH]; intros a x t Hn Hl Hx.
    - destruct t; [|cbn in Hn; lia]. rewrite cnt_cons, Hx. cbn. lia.
    - destruct (existsb P t) eqn:E.
      + assert (S : exists b y c, t = b ++ y :: c /\ P y = true /\ cnt P b = 0%nat).
        { clear - E. induction t as [|z t IH]; [discriminate|]. cbn in E. destruct (P z) eqn:Ez.
          - exists [], z, t. auto.
          - destruct (IH E) as [b [y [c [-> [Hy Hb]]]]]. exists (z :: b), y, c. rewrite cnt_cons, Ez, Hb. auto. }
        destruct S as [b [y [c [-> [Hy Hb]]]]]. destruct (H a x b y c Hl Hx Hy) as [z [Hz Hq]].
        assert (Hlen : (length c <= n)%nat) by (rewrite app_length in Hn; cbn in Hn; lia).
        pose proof (IH (a ++ x :: b) y c Hlen) as K. rewrite <- app_assoc in K. specialize (K Hl Hy).
        rewrite cnt_cons, Hx. rewrite !cnt_app, Hb. apply in_split in Hz. destruct Hz as [b1 [b2 ->]].
        rewrite (cnt_app Q b1), (cnt_cons Q z), Hq, (cnt_cons Q y). lia.
      + assert (cnt P t = 0%nat).
        { apply cnt_none. intros y Hy. destruct (P y) eqn:Ey; [|reflexivity]. rewrite <- E. symmetry. apply existsb_exists. eauto. }
        rewrite cnt_cons, Hx. lia. }
  destruct (existsb P l) eqn:E.
  - assert (S : exists a x t, l = a ++ x :: t /\ P x = true /\ cnt P a = 0%nat).
    { clear - E. induction l as [|z t IH]; [discriminate|]. cbn in E. destruct (P z) eqn:Ez.
      - exists [], z, t. auto.
      - destruct (IH E) as [b [y [c [-> [Hy Hb]]]]]. exists (z :: b), y, c. rewrite cnt_cons, Ez, Hb. auto. }
    destruct S as [a [x [t [-> [Hx Ha]]]]]. specialize (G (length t) a x t (le_n _) eq_refl Hx).
    rewrite !cnt_app, Ha, (cnt_cons Q x). lia.
  - assert (cnt P l = 0%nat); [|lia].
    apply cnt_none. intros y Hy. destruct (P y) eqn:Ey; [|reflexivity]. rewrite <- E. symmetry. apply existsb_exists. eauto.
Qed.

(** * Events of one job *)
Definition hand_outb (id : Z) (ev : cevent) : bool := match ev with EvHandOut _ j => j_id j =? id | _ => false end.
Definition releaseb (id : Z) (ev : cevent) : bool := match ev with EvApply _ _ o _ => reopens id o | _ => false end.
Definition write_backb (id : Z) (ev : cevent) : bool := match ev with EvWriteBack _ j (Ok _) => j_id j =? id | _ => false end.
Definition finished_call (c : call) : bool := match cl_pc c with PcDone _ => true | _ => false end.

Lemma reopens_iff id o : reopens id o = true <-> releases id o.
Proof. destruct o; cbn; try (split; [discriminate|tauto]); apply Z.eqb_eq. Qed.

Lemma cnt_set_nth {A} (P : A -> bool) : forall l i x y, nth_error l i = Some x ->
  (cnt P (set_nth i y l) + (if P x then 1 else 0) = cnt P l + (if P y then 1 else 0))%nat.
Proof.
  induction l as [|a l IH]; intros i x y H; destruct i; cbn in H; try discriminate.
  - injection H as ->. cbn [set_nth]. rewrite !cnt_cons. destruct (P x), (P y); lia.
  - cbn [set_nth]. rewrite !cnt_cons. specialize (IH _ _ y H). destruct (P a), (P x), (P y); lia.
Qed.

(** A call releases or writes back at most once. *)
Lemma release_calls p ls id : let s := conc_run p c_init ls in
  (cnt (releaseb id) (conc_trace p c_init ls) <= cnt (fun c => reopens id (cl_op c) && finished_call c) (c_calls s))%nat
  /\ (cnt (write_backb id) (conc_trace p c_init ls) <= cnt (wrote_back id) (c_calls s))%nat
  /\ (forall c, In c (c_calls s) -> match cl_pc c with
        | PcWriteBack _ => cl_id c = None /\ exists e uq, cl_op c = OpEnqueue e /\ eq_criteria e = Some uq
        | PcStart | PcDraw => cl_id c = None | _ => True end).
Proof.
  induction ls as [|l ls IH] using rev_ind; cbn zeta in *; [split; [cbn; lia|split; [cbn; lia|intros c []]]|].
  rewrite conc_trace_app, conc_run_app. cbn [conc_trace conc_run]. rewrite app_nil_r, !cnt_app.
  set (s := conc_run p c_init ls) in *. destruct IH as [IH1 [IH2 IH3]].
  assert (Same : forall s' ev, c_calls s' = c_calls s -> cnt (releaseb id) ev = 0%nat -> cnt (write_backb id) ev = 0%nat ->
    (cnt (releaseb id) (conc_trace p c_init ls) + cnt (releaseb id) ev <= cnt (fun c => reopens id (cl_op c) && finished_call c) (c_calls s'))%nat
    /\ (cnt (write_backb id) (conc_trace p c_init ls) + cnt (write_backb id) ev <= cnt (wrote_back id) (c_calls s'))%nat
    /\ (forall c, In c (c_calls s') -> match cl_pc c with
        | PcWriteBack _ => cl_id c = None /\ exists e uq, cl_op c = OpEnqueue e /\ eq_criteria e = Some uq
        | PcStart | PcDraw => cl_id c = None | _ => True end)).
  { intros s' ev -> -> ->. rewrite !Nat.add_0_r. auto. }
  destruct l as [o|i now|ex|k now|k]; cbn [conc_step].
  - assert (Add : forall o, 
      (cnt (releaseb id) (conc_trace p c_init ls) + 0 <= cnt (fun c => reopens id (cl_op c) && finished_call c) (c_calls s ++ [mk_call o PcStart None]))%nat
      /\ (cnt (write_backb id) (conc_trace p c_init ls) + 0 <= cnt (wrote_back id) (c_calls s ++ [mk_call o PcStart None]))%nat
      /\ (forall c, In c (c_calls s ++ [mk_call o PcStart None]) -> match cl_pc c with
        | PcWriteBack _ => cl_id c = None /\ exists e uq, cl_op c = OpEnqueue e /\ eq_criteria e = Some uq
        | PcStart | PcDraw => cl_id c = None | _ => True end)).
    { intro o'. rewrite !cnt_app. split; [lia|]. split; [lia|]. intros c Hc. apply in_app_or in Hc. destruct Hc as [Hc|[<-|[]]]; [exact (IH3 c Hc)|reflexivity]. }
    destruct o; cbn [fst snd c_calls]; try (apply Same; reflexivity); apply Add.
  - destruct (nth_error (c_calls s) i) as [c0|] eqn:En; [|apply Same; reflexivity].
    pose proof (IH3 c0 (nth_error_In _ _ En)) as I0.
    assert (Upd : forall m' c' ev,
      (cnt (releaseb id) ev + (if reopens id (cl_op c0) && finished_call c0 then 1 else 0) <= (if reopens id (cl_op c') && finished_call c' then 1 else 0))%nat ->
      (cnt (write_backb id) ev + (if wrote_back id c0 then 1 else 0) <= (if wrote_back id c' then 1 else 0))%nat ->
      match cl_pc c' with
        | PcWriteBack _ => cl_id c' = None /\ exists e uq, cl_op c' = OpEnqueue e /\ eq_criteria e = Some uq
        | PcStart | PcDraw => cl_id c' = None | _ => True end ->
      (cnt (releaseb id) (conc_trace p c_init ls) + cnt (releaseb id) (snd (mk_c m' (set_nth i c' (c_calls s)) (c_streams s), ev))
         <= cnt (fun c => reopens id (cl_op c) && finished_call c) (c_calls (fst (mk_c m' (set_nth i c' (c_calls s)) (c_streams s), ev))))%nat
      /\ (cnt (write_backb id) (conc_trace p c_init ls) + cnt (write_backb id) (snd (mk_c m' (set_nth i c' (c_calls s)) (c_streams s), ev))
         <= cnt (wrote_back id) (c_calls (fst (mk_c m' (set_nth i c' (c_calls s)) (c_streams s), ev))))%nat
      /\ (forall c, In c (c_calls (fst (mk_c m' (set_nth i c' (c_calls s)) (c_streams s), ev))) -> match cl_pc c with
        | PcWriteBack _ => cl_id c = None /\ exists e uq, cl_op c = OpEnqueue e /\ eq_criteria e = Some uq
        | PcStart | PcDraw => cl_id c = None | _ => True end)).
    { intros m' c' ev H1 H2 H3. cbn [fst snd c_calls].
      pose proof (cnt_set_nth (fun c => reopens id (cl_op c) && finished_call c) _ _ _ c' En) as K1.
      pose proof (cnt_set_nth (wrote_back id) _ _ _ c' En) as K2. cbn beta in K1. split; [lia|]. split; [lia|].
      intros c Hc. apply in_set_nth in Hc. destruct Hc as [->|Hc]; [exact H3|exact (IH3 c Hc)]. }
    destruct (call_step p i now (c_mem s) c0) as [[m' c'] ev] eqn:Ec. apply Upd; clear Upd Same.
    all: unfold call_step in Ec; destruct c0 as [o pc0 cid]; cbn [cl_pc cl_op cl_id] in *.
    + destruct pc0 as [| |id0|id0|j|r0].
      * destruct (is_enq o) eqn:Eo.
        -- destruct o; try discriminate Eo. destruct (eq_criteria e); [destruct (matching_jobs _ _) as [[|]|err|]|]; injection Ec as <- <- <-; cbn; lia.
        -- assert (H' : (let (m', r) := mem_step p now (c_mem s) o in (m', mk_call o (PcDone r) cid, [EvApply i now o r])) = (m', c', ev))
             by (destruct o; exact Ec || discriminate Eo).
           destruct (mem_step p now (c_mem s) o) as [m1 r1]. injection H' as <- <- <-. rewrite cnt_cons. cbn [releaseb cl_op finished_call cl_pc cnt filter length].
           destruct (reopens id o); cbn; lia.
      * destruct o; injection Ec as <- <- <-; cbn [finished_call cl_pc cl_op reopens andb cnt filter length]; rewrite ?Bool.andb_false_r; cbn; try lia.
      * destruct o; [destruct (m_poisoned (c_mem s))|..]; injection Ec as <- <- <-; cbn [finished_call cl_pc cl_op reopens andb cnt filter length]; rewrite ?Bool.andb_false_r; cbn; try lia.
      * destruct o; injection Ec as <- <- <-; cbn [finished_call cl_pc cl_op reopens andb cnt filter length]; rewrite ?Bool.andb_false_r; cbn; try lia.
      * destruct o; [destruct (mem_update (c_mem s) j) as [m1 r1]|..]; injection Ec as <- <- <-; cbn [finished_call cl_pc cl_op reopens andb cnt filter length]; rewrite ?Bool.andb_false_r; cbn; try lia.
      * assert (K : c' = mk_call o (PcDone r0) cid /\ ev = []) by (destruct o; split; congruence). destruct K as [-> ->]. cbn [cnt filter length cl_op finished_call cl_pc]. lia.
    + destruct pc0 as [| |id0|id0|j|r0].
      * destruct (is_enq o) eqn:Eo.
        -- destruct o; try discriminate Eo. destruct (eq_criteria e); [destruct (matching_jobs _ _) as [[|]|err|]|]; injection Ec as <- <- <-; cbn; lia.
        -- assert (H' : (let (m', r) := mem_step p now (c_mem s) o in (m', mk_call o (PcDone r) cid, [EvApply i now o r])) = (m', c', ev))
             by (destruct o; exact Ec || discriminate Eo).
           destruct (mem_step p now (c_mem s) o) as [m1 r1]. injection H' as <- <- <-. unfold wrote_back. cbn [cl_op cl_pc cl_id]. destruct o; try discriminate Eo; cbn; lia.
      * destruct o; injection Ec as <- <- <-; cbn; lia.
      * destruct o; [destruct (m_poisoned (c_mem s))|..]; injection Ec as <- <- <-; cbn; lia.
      * destruct o; injection Ec as <- <- <-; cbn; lia.
      * destruct I0 as [-> [e [uq [-> Euq]]]]. destruct (mem_update (c_mem s) j) as [m1 r1]. injection Ec as <- <- <-.
        rewrite cnt_cons. unfold wrote_back. cbn [cl_op cl_pc cl_id write_backb cnt filter length]. rewrite Euq.
        destruct r1; [destruct (j_id j =? id); lia|lia|lia].
      * assert (K : c' = mk_call o (PcDone r0) cid /\ ev = []) by (destruct o; split; congruence). destruct K as [-> ->]. cbn [cnt filter length]. lia.
    + destruct pc0 as [| |id0|id0|j|r0].
      * destruct (is_enq o) eqn:Eo.
        -- destruct o; try discriminate Eo. destruct (eq_criteria e) eqn:Euq; [destruct (matching_jobs _ _) as [[|]|err|]|]; injection Ec as <- <- <-; cbn; eauto.
        -- assert (H' : (let (m', r) := mem_step p now (c_mem s) o in (m', mk_call o (PcDone r) cid, [EvApply i now o r])) = (m', c', ev))
             by (destruct o; exact Ec || discriminate Eo).
           destruct (mem_step p now (c_mem s) o) as [m1 r1]. injection H' as <- <- <-. exact Logic.I.
      * destruct o; injection Ec as <- <- <-; cbn; auto.
      * destruct o; [destruct (m_poisoned (c_mem s))|..]; injection Ec as <- <- <-; cbn; auto.
      * destruct o; injection Ec as <- <- <-; cbn; auto.
      * destruct o; [destruct (mem_update (c_mem s) j) as [m1 r1]|..]; injection Ec as <- <- <-; cbn; auto.
      * assert (K : c' = mk_call o (PcDone r0) cid) by (destruct o; congruence). rewrite K. exact Logic.I.
  - apply Same; reflexivity.
  - destruct (nth_error (c_streams s) k) as [ph|]; [|apply Same; reflexivity]. destruct (nth_error (m_subs (c_mem s)) k) as [sb|]; [|apply Same; reflexivity].
    destruct (stream_step p k now (c_mem s) sb ph) as [[m' ph'] ev] eqn:Es. cbn [fst snd c_calls].
    assert (Hev : ev = [] \/ exists j, ev = [EvHandOut k j]).
    { unfold stream_step in Es. destruct ph; try (injection Es as <- <- <-; auto; fail).
      - destruct (next_available _ _); injection Es as <- <- <-; auto.
      - destruct (mem_load _ _ _ _) as [m1 [[j|]|err|]]; injection Es as <- <- <-; eauto. }
    apply Same; [reflexivity|destruct Hev as [->|[j ->]]; reflexivity..].
  - destruct (nth_error (c_streams s) k) as [[| | | |t rd sl d| |]|]; try (apply Same; reflexivity).
    destruct (nth_error (m_subs (c_mem s)) k) as [sb|]; try (apply Same; reflexivity). destruct (sub_queue sb); apply Same; reflexivity.
Qed.

(** An enqueue that asks for nothing, or for a window of no width, never finds a job in its way. *)
Definition never_unique (o : mop) : bool :=
  match o with
  | OpEnqueue e => match eq_criteria e with None => true | Some uq => match uc_duration uq with Some d => d <=? 0 | None => false end end
  | _ => true
  end.

Lemma never_match now e l : never_unique (OpEnqueue e) = true -> filter (enqueuable_matches now e) l = [].
Proof.
  intro H. induction l as [|k l IH]; [reflexivity|]. cbn [filter]. rewrite IH. cbn in H.
  assert (E : enqueuable_matches now e k = false); [|rewrite E; reflexivity].
  unfold enqueuable_matches. destruct (eq_criteria e) as [uq|]; [|reflexivity]. destruct (uc_duration uq) as [d|]; [|discriminate].
  apply Z.leb_le in H. assert (E : Z.abs (dt_diff (j_scheduled_at (kj_job k)) now) <? d = false) by (apply Z.ltb_ge; lia).
  rewrite E. apply Bool.andb_false_r.
Qed.

Lemma never_back p ls c id : In c (c_calls (conc_run p c_init ls)) -> never_unique (cl_op c) = true -> wrote_back id c = false.
Proof.
  intros Hc Hu.
  assert (G : forall c, In c (c_calls (conc_run p c_init ls)) -> never_unique (cl_op c) = true ->
    match cl_pc c with
    | PcWriteBack _ => False
    | PcPush _ | PcNotify _ => cl_id c <> None
    | PcDone (RId (Ok _)) => is_enq (cl_op c) = true -> cl_id c <> None
    | _ => True end).
  { clear c Hc Hu. induction ls as [|l ls IH] using rev_ind; intros c Hc Hu; [destruct Hc|].
    rewrite conc_run_app in Hc. cbn [conc_run] in Hc. set (s := conc_run p c_init ls) in *.
    destruct l as [o|i now|ex|k now|k]; cbn [conc_step] in Hc.
    - assert (K : In c (c_calls s ++ [mk_call o PcStart None]) \/ In c (c_calls s)) by (destruct o; cbn in Hc; auto).
      destruct K as [K|K]; [|apply IH; assumption]. apply in_app_or in K. destruct K as [K|[<-|[]]]; [apply IH; assumption|exact Logic.I].
    - destruct (nth_error (c_calls s) i) as [c0|] eqn:En; [|apply IH; assumption].
      destruct (call_step p i now (c_mem s) c0) as [[m' c'] ev] eqn:Ec. cbn [fst c_calls] in Hc.
      apply in_set_nth in Hc. destruct Hc as [->|Hc]; [|apply IH; assumption].
      pose proof (IH c0 (nth_error_In _ _ En)) as I0. clear IH En. unfold call_step in Ec. destruct c0 as [o pc0 cid]. cbn [cl_pc cl_op cl_id] in *.
      destruct pc0 as [| |id0|id0|j|r0].
      + destruct (is_enq o) eqn:Eo.
        * destruct o; try discriminate Eo. assert (Hu' : never_unique (OpEnqueue e) = true).
          { destruct (eq_criteria e); [destruct (matching_jobs _ _) as [[|]|err|]|]; injection Ec as <- <- <-; exact Hu. }
          unfold matching_jobs in Ec. rewrite never_match in Ec by exact Hu'.
          destruct (eq_criteria e), (m_poisoned (c_mem s)); injection Ec as <- <- <-; exact Logic.I.
        * assert (H' : (let (m', r) := mem_step p now (c_mem s) o in (m', mk_call o (PcDone r) cid, [EvApply i now o r])) = (m', c', ev))
            by (destruct o; exact Ec || discriminate Eo).
          destruct (mem_step p now (c_mem s) o) as [m1 r1]. injection H' as <- <- <-. cbn. destruct r1 as [[| |]| | |]; try exact Logic.I. congruence.
      + destruct o; injection Ec as <- <- <-; cbn; try exact Logic.I. discriminate.
      + destruct o; [destruct (m_poisoned (c_mem s))|..]; injection Ec as <- <- <-; cbn in *; try exact Logic.I; auto.
      + destruct o; injection Ec as <- <- <-; cbn in *; auto.
      + destruct o; [destruct (mem_update (c_mem s) j) as [m1 r1]|..]; injection Ec as <- <- <-; cbn in *; auto; try tauto.
      + assert (K : c' = mk_call o (PcDone r0) cid) by (destruct o; congruence). subst c'. cbn in *. exact (I0 Hu).
    - apply IH; assumption.
    - destruct (nth_error (c_streams s) k) as [ph|]; [|apply IH; assumption]. destruct (nth_error (m_subs (c_mem s)) k) as [sb|]; [|apply IH; assumption].
      destruct (stream_step p k now (c_mem s) sb ph) as [[m' ph'] ev]. apply IH; assumption.
    - destruct (nth_error (c_streams s) k) as [[| | | |t rd sl d| |]|]; try (apply IH; assumption).
      destruct (nth_error (m_subs (c_mem s)) k) as [sb|]; try (apply IH; assumption). destruct (sub_queue sb); apply IH; assumption. }
  specialize (G c Hc Hu). unfold wrote_back. destruct (cl_op c) eqn:Eo; try reflexivity.
  destruct (cl_pc c) as [| | | | |[[|? |]| | |]]; try reflexivity. destruct (cl_id c); [reflexivity|]. exfalso. apply G; reflexivity.
Qed.

(** Hand-outs of a job. *)
Lemma hand_outs_bound p ls id : new_enqueues ls <= 4294967296 ->
  let s := conc_run p c_init ls in
  (cnt (fun j => Z.eqb (j_id j) id) (given (conc_trace p c_init ls))
   <= 1 + cnt (fun c => reopens id (cl_op c)) (c_calls s) + cnt (wrote_back id) (c_calls s))%nat.
Proof.
  intros Hn s. destruct (release_calls p ls id) as [R1 [R2 _]]. fold s in R1, R2.
  assert (B : (cnt (hand_outb id) (conc_trace p c_init ls)
     <= 1 + cnt (fun ev => releaseb id ev || write_backb id ev) (conc_trace p c_init ls))%nat).
  { apply between. intros a x b y c Ht Hx Hy.
    assert (Hx' : hand_out_of id x) by (destruct x; try discriminate; apply Z.eqb_eq; exact Hx).
    assert (Hy' : hand_out_of id y) by (destruct y; try discriminate; apply Z.eqb_eq; exact Hy).
    destruct (reopened_lemma p ls s a x b y c id) as [z [Hz Hr]]; auto.
    { split; [reflexivity|exact Hn]. }
    { destruct x; try contradiction. exact Hx'. }
    exists z. split; [exact Hz|]. apply Bool.orb_true_iff. destruct Hr as [Hr|Hr].
    - left. destruct z as [| | |i0 nw o r]; try contradiction. cbn in Hr |- *. apply reopens_iff.
      destruct r as [|[| |]| |]; try contradiction. exact Hr.
    - right. destruct z as [| |i0 j0 r|]; try contradiction. cbn in Hr |- *. destruct r; try contradiction. apply Z.eqb_eq. exact Hr. }
  assert (S : (cnt (fun ev => releaseb id ev || write_backb id ev) (conc_trace p c_init ls)
     <= cnt (releaseb id) (conc_trace p c_init ls) + cnt (write_backb id) (conc_trace p c_init ls))%nat).
  { generalize (conc_trace p c_init ls). clear. induction l as [|ev tr IH]; [cbn; lia|]. rewrite !cnt_cons. destruct (releaseb id ev), (write_backb id ev); cbn [orb]; lia. }
  assert (E : cnt (fun j => Z.eqb (j_id j) id) (given (conc_trace p c_init ls)) = cnt (hand_outb id) (conc_trace p c_init ls)).
  { generalize (conc_trace p c_init ls). clear. induction l as [|ev tr IH]; [reflexivity|]. cbn [given flat_map]. rewrite cnt_app, cnt_cons.
    change (flat_map _ tr) with (given tr). rewrite IH. destruct ev; try reflexivity. rewrite cnt_cons. cbn [hand_outb]. destruct (j_id j =? id); reflexivity. }
  assert (F : (cnt (fun c => reopens id (cl_op c) && finished_call c) (c_calls s) <= cnt (fun c => reopens id (cl_op c)) (c_calls s))%nat).
  { apply cnt_le. intros c Hc. apply Bool.andb_true_iff in Hc. tauto. }
  lia.
Qed.

(** * The jobs of a worker *)
Definition aims (id : Z) (o : mop) : bool :=
  reopens id o || match o with OpComplete i | OpDiscarded i _ | OpCancelled i _ => i =? id | _ => false end.

Lemma by_number {A} (f : A -> nat) : forall N l, (forall n, (N <= n)%nat -> filter (fun x => Nat.eqb (f x) n) l = []) ->
  Permutation l (flat_map (fun n => filter (fun x => Nat.eqb (f x) n) l) (seq 0 N)).
Proof.
  induction N as [|N IH]; intros l H.
  - destruct l as [|x l]; [constructor|]. specialize (H (f x) (Nat.le_0_l _)). cbn in H. rewrite Nat.eqb_refl in H. discriminate.
  - rewrite seq_S, flat_map_app. cbn [flat_map]. rewrite app_nil_r, Nat.add_0_l.
    set (l1 := filter (fun x => negb (Nat.eqb (f x) N)) l).
    assert (P : Permutation l (l1 ++ filter (fun x => Nat.eqb (f x) N) l)).
    { unfold l1. clear. induction l as [|x l IH]; [constructor|]. cbn. destruct (Nat.eqb (f x) N); cbn [negb].
      - apply Permutation_cons_app. exact IH.
      - cbn. constructor. exact IH. }
    rewrite P at 1. apply Permutation_app_tail.
    assert (F : forall n, n <> N -> filter (fun x => Nat.eqb (f x) n) l1 = filter (fun x => Nat.eqb (f x) n) l).
    { intros n Hn. unfold l1. clear - Hn. induction l as [|x l IH]; [reflexivity|]. cbn.
      destruct (Nat.eqb_spec (f x) N) as [->|]; cbn [negb].
      - destruct (Nat.eqb_spec N n); [congruence|]. exact IH.
      - cbn. destruct (Nat.eqb (f x) n); rewrite IH; reflexivity. }
    rewrite (IH l1) at 1.
    + match goal with |- Permutation ?x ?y => replace x with y; [apply Permutation_refl|] end. rewrite !flat_map_concat_map. f_equal. symmetry. apply map_ext_in. intros n Hn. apply in_seq in Hn. apply F. lia.
    + intros n Hn. destruct (Nat.eqb_spec n N) as [->|Hne].
      * unfold l1. clear. induction l as [|x l IH]; [reflexivity|]. cbn. destruct (Nat.eqb (f x) N) eqn:E; cbn [negb]; [exact IH|]. cbn. rewrite E. exact IH.
      * rewrite F by exact Hne. apply H. lia.
Qed.

Lemma sum_add {A} (f g : A -> nat) l : list_sum (map (fun x => f x + g x)%nat l) = (list_sum (map f l) + list_sum (map g l))%nat.
Proof. induction l as [|x l IH]; [reflexivity|]. cbn [map list_sum fold_right] in *. unfold list_sum in IH. lia. Qed.
Lemma sum_le {A} (f g : A -> nat) l : (forall x, In x l -> (f x <= g x)%nat) -> (list_sum (map f l) <= list_sum (map g l))%nat.
Proof.
  intro H. induction l as [|x l IH]; [reflexivity|]. cbn [map list_sum fold_right] in *. pose proof (H x (or_introl eq_refl)).
  specialize (IH (fun y Hy => H y (or_intror Hy))). unfold list_sum in IH. lia.
Qed.

Section Worker.
  Context {D M : Type}.
  Variable c : codec D M.
  Variable fns : executor_fns D M.
  Variable show : Z -> string.

  Lemma report_aims id n1 n2 x o op : report show n1 n2 x o = Some op -> aims id op = (x_id x =? id).
  Proof.
    unfold report, report_error. intro H.
    repeat match type of H with
      | context [match ?y with _ => _ end] => destruct y; try discriminate
      end; injection H as <-; unfold aims; cbn [reopens orb]; rewrite ?Bool.orb_false_r; reflexivity.
  Qed.

  Definition takes (id : Z) (o : observation) : bool := match o with Taken _ (MJob j) => j_id j =? id | _ => false end.
  Definition tells (id : Z) (o : observation) : bool := match o with Reported _ op => aims id op | _ => false end.

  Lemma has_report_story n wk : has_report n (w_seen wk) = has_report n (story n wk).
  Proof.
    unfold has_report, story. apply Bool.eq_true_iff_eq. rewrite !existsb_exists. split.
    - intros [o [Ho Hn]]. exists o. split; [|exact Hn]. apply filter_In. split; [apply in_rev in Ho; exact Ho|]. destruct o; try discriminate. exact Hn.
    - intros [o [Ho Hn]]. apply filter_In in Ho. exists o. split; [apply in_rev; exact (proj1 Ho)|exact Hn].
  Qed.

  Lemma course_balance id n ph l : course c fns show n ph l ->
    cnt (takes id) l = ((if has_report n l then 0 else cnt (takes id) l) + cnt (tells id) l)%nat.
  Proof.
    intro H. destruct H as [m|j x Hb|j x o now1 now2 op Hb Hr|j x o now1 now2 op Hb Hr|e|j Hb]; cbn [has_report existsb orb];
      rewrite !cnt_cons; cbn [takes tells]; try (cbn; lia).
    all: destruct (begin_spawned c fns show j x Hb) as [t [_ [_ [_ [Hx _]]]]]; rewrite Nat.eqb_refl; cbn [orb];
      rewrite (report_aims id _ _ _ _ _ Hr), Hx; destruct (j_id j =? id); cbn; lia.
  Qed.

  Lemma worker_balance id wk : winv c fns show wk ->
    cnt (fun j => Z.eqb (j_id j) id) (jobs_taken wk)
    = (cnt (fun j => Z.eqb (j_id j) id) (unreported wk) + cnt (fun x => aims id (snd x)) (reports wk))%nat.
  Proof.
    intros [_ [_ [W3 [W4 _]]]].
    pose proof (by_number obs_number (w_next wk) (rev (w_seen wk)) W3) as P.
    change (flat_map _ (seq 0 (w_next wk))) with (flat_map (fun n => story n wk) (seq 0 (w_next wk))) in P.
    assert (E1 : cnt (fun j => Z.eqb (j_id j) id) (jobs_taken wk) = cnt (takes id) (rev (w_seen wk))).
    { unfold jobs_taken. rewrite rev_flat by (intros [? []| | |]; reflexivity). generalize (rev (w_seen wk)). intro l.
      induction l as [|o l IH]; [reflexivity|]. cbn [flat_map]. rewrite cnt_app, cnt_cons, IH. destruct o as [n []| | |]; reflexivity || (cbn [takes]; rewrite cnt_cons; cbn; lia). }
    assert (E2 : cnt (fun x => aims id (snd x)) (reports wk) = cnt (tells id) (rev (w_seen wk))).
    { unfold reports. rewrite rev_flat by (intros []; reflexivity). generalize (rev (w_seen wk)). intro l.
      induction l as [|o l IH]; [reflexivity|]. cbn [flat_map]. rewrite cnt_app, cnt_cons, IH. destruct o as [n []| | |]; reflexivity || (cbn [tells]; rewrite cnt_cons; cbn; lia). }
    assert (E3 : cnt (fun j => Z.eqb (j_id j) id) (unreported wk)
       = cnt (fun o => takes id o && negb (has_report (obs_number o) (w_seen wk))) (rev (w_seen wk))).
    { unfold unreported. generalize (rev (w_seen wk)). intro l.
      induction l as [|o l IH]; [reflexivity|]. cbn [flat_map]. rewrite cnt_app, cnt_cons, IH. destruct o as [n [j|]| | |]; try reflexivity.
      cbn [takes obs_number]. destruct (has_report n (w_seen wk)); cbn [negb]; rewrite ?Bool.andb_false_r, ?Bool.andb_true_r; [reflexivity|].
      rewrite cnt_cons. cbn. lia. }
    rewrite E1, E2, E3, !(cnt_perm _ _ _ P), !cnt_flat, <- sum_add. f_equal. apply map_ext_in. intros n Hn. apply in_seq in Hn.
    assert (Hn' : (n < w_next wk)%nat) by lia. specialize (W4 n Hn').
    assert (B : cnt (takes id) (story n wk) = ((if has_report n (story n wk) then 0 else cnt (takes id) (story n wk)) + cnt (tells id) (story n wk))%nat).
    { destruct (w_life wk); [eapply course_balance; exact W4..|].
      destruct W4 as [ph l Hc|j x o Hb]; [eapply course_balance; exact Hc|]. cbn. destruct (j_id j =? id); reflexivity. }
    rewrite B at 1. f_equal. rewrite <- has_report_story.
    assert (G : forall l, (forall o, In o l -> obs_number o = n) ->
      (if has_report n (w_seen wk) then 0%nat else cnt (takes id) l)
      = cnt (fun o => takes id o && negb (has_report (obs_number o) (w_seen wk))) l).
    { induction l as [|o l IH]; intro Hl; [destruct (has_report n (w_seen wk)); reflexivity|].
      rewrite !cnt_cons, <- IH by (intros y Hy; apply Hl; right; exact Hy). rewrite (Hl o (or_introl eq_refl)).
      destruct (has_report n (w_seen wk)); cbn [negb]; rewrite ?Bool.andb_false_r, ?Bool.andb_true_r; reflexivity. }
    apply G. intros o Ho. apply filter_In in Ho. apply Nat.eqb_eq. exact (proj2 Ho).
  Qed.
End Worker.

(** * The whole program *)
Section Once.
  Context {Schedule Zone : Type}.
  Variable utc : Zone.
  Variable upcoming : Schedule -> Zone -> time -> option time.
  Variable show : Z -> string.
  Variable hash : forall e : executor, xe_data e -> Z.
  Variable p : profile.
  Notation world := (world Schedule Zone).
  Notation vrun := (world_run (Schedule := Schedule) (Zone := Zone) utc upcoming show hash p).

  Definition told_on (b : nat) (t : task Schedule Zone) : list (nat * mop) :=
    if Nat.eqb (ta_backend t) b then match ta_body t with BWorker _ wk => reports wk | _ => [] end else [].

  Lemma per_firing_quiet id f l : (forall next o, In o (f next) -> reopens id o = false) ->
    cnt (fun x => reopens id (snd x)) (per_firing f l) = 0%nat.
  Proof.
    intro H. induction l as [|[c next] l IH]; [reflexivity|]. cbn [per_firing]. rewrite cnt_app, IH, cnt_map. apply cnt_none.
    intros o Ho. exact (H next o Ho).
  Qed.

  Lemma per_firing_in f l n o : In (n, o) (per_firing f l) -> exists next, In o (f next).
  Proof.
    induction l as [|[c next] l IH]; [intros []|]. cbn [per_firing]. intro H. apply in_app_or in H. destruct H as [H|H]; [auto|].
    apply in_map_iff in H. destruct H as [x [E Hx]]. injection E as _ <-. eauto.
  Qed.
  Lemma owed_never (bd : body Schedule Zone) n o : In (n, o) (owed hash bd) -> (exists e wk, bd = BWorker e wk) \/ never_unique o = true.
  Proof.
    destruct bd as [e wk|e sc z data k|sc cfg k]; intro H; [eauto|right..]; cbn [owed] in H; apply per_firing_in in H; destruct H as [next H].
    - unfold cron_calls in H. destruct (enc_data (xe_codec e) data); [|destruct H]. destruct H as [<-|[]]. reflexivity.
    - apply in_map_iff in H. destruct H as [q [<- _]]. reflexivity.
  Qed.

  Lemma reports_never es w t e wk n o : vrun world_init es = Some w -> In t (pr_tasks (wd_process w)) -> ta_body t = BWorker e wk ->
    In (n, o) (reports wk) -> never_unique o = true.
  Proof.
    intros H Ht Eb Hi. pose proof (task_winv utc upcoming show hash p es w t e wk H Ht Eb) as [_ [_ [W3 [W4 _]]]].
    assert (Hs : In (Reported n o) (story n wk)).
    { unfold reports in Hi. rewrite <- in_rev in Hi. apply in_flat_map in Hi. destruct Hi as [ob [Ho Hi]].
      destruct ob as [? ?|? ?|? ?|n' op]; cbn in Hi; [destruct Hi..|]. destruct Hi as [E|[]]. injection E as -> ->. unfold story. apply filter_In.
      split; [apply in_rev in Ho; exact Ho|apply Nat.eqb_refl]. }
    destruct (Nat.lt_ge_cases n (w_next wk)) as [Hlt|Hge]; [|rewrite (W3 n Hge) in Hs; destruct Hs].
    specialize (W4 n Hlt).
    assert (C : forall ph l, course (xe_codec e) (xe_fns e) show n ph l -> In (Reported n o) l -> never_unique o = true).
    { intros ph l Hc Hin. destruct Hc as [m|j x Hb|j x o' now1 now2 op Hb Hr|j x o' now1 now2 op Hb Hr|er|j Hb]; cbn in Hin;
        repeat match type of Hin with _ \/ _ => destruct Hin as [Hin|Hin]; [try discriminate Hin|] end; try (destruct Hin; fail);
        injection Hin as <-; pose proof (report_five show _ _ _ _ _ Hr) as F; destruct op; try (destruct F; fail); reflexivity. }
    destruct (w_life wk); [eapply C; [exact W4|exact Hs]..|].
    inversion W4 as [ph l Hc|j x oo Hb Hl]; [eapply C; [exact Hc|exact Hs]|].
    rewrite <- Hl in Hs. cbn in Hs. repeat (destruct Hs as [Hs|Hs]; [discriminate|]). destruct Hs.
  Qed.

  Theorem holders_thm es w b s id : vrun world_init es = Some w -> nth_error (wd_stores w) b = Some s ->
    Z.of_nat (length (filter enqueues_job (c_calls s))) <= 4294967296 ->
    (length (filter (fun j => Z.eqb (j_id j) id) (flat_map (held_on b) (pr_tasks (wd_process w))))
     <= 1 + length (filter (reopens id) (outside b es)) + length (filter (wrote_back id) (c_calls s)))%nat.
  Proof.
    intros H Hs Hn. pose proof (store_thm utc upcoming show hash p es w b s H Hs) as Es.
    assert (Hn' : new_enqueues (labels b (wd_log w)) <= 4294967296).
    { etransitivity; [|exact Hn]. apply Nat2Z.inj_le. apply Nat.eq_le_incl.
      change (length (filter enqueues_job (c_calls s))) with (cnt (fun c => match cl_op c with OpEnqueue _ => true | _ => false end) (c_calls s)).
      rewrite <- (cnt_map (fun o => match o with OpEnqueue _ => true | _ => false end) cl_op), Es, (proj1 (proj2 (store_run p (labels b (wd_log w))))).
      clear. induction (labels b (wd_log w)) as [|l ls IH]; [reflexivity|]. unfold calls_of in *. cbn [filter flat_map]. rewrite cnt_app, <- IH.
      destruct l as [[]| | | |]; reflexivity. }
    pose proof (hand_outs_bound p (labels b (wd_log w)) id Hn') as Hb. cbn zeta in Hb. rewrite <- Es in Hb.
    rewrite (cnt_perm _ _ _ (given_thm utc upcoming show hash p es w b H)), cnt_flat in Hb.
    pose proof (calls_thm utc upcoming show hash p es w b s H Hs) as Pc. apply (cnt_perm (reopens id)) in Pc.
    rewrite cnt_map, cnt_app, cnt_flat in Pc.
    fold (cnt (fun j => Z.eqb (j_id j) id) (flat_map (held_on b) (pr_tasks (wd_process w)))).
    fold (cnt (reopens id) (outside b es)). fold (cnt (wrote_back id) (c_calls s)). rewrite cnt_flat.
    assert (S1 : list_sum (map (fun t => cnt (fun j => Z.eqb (j_id j) id) (taken_on b t)) (pr_tasks (wd_process w)))
      = (list_sum (map (fun t => cnt (fun j => Z.eqb (j_id j) id) (held_on b t)) (pr_tasks (wd_process w)))
         + list_sum (map (fun t => cnt (fun x => aims id (snd x)) (told_on b t)) (pr_tasks (wd_process w))))%nat).
    { rewrite <- sum_add. f_equal. apply map_ext_in. intros t Ht. unfold taken_on, held_on, told_on.
      destruct (Nat.eqb (ta_backend t) b); [|reflexivity]. destruct (ta_body t) as [e wk| |] eqn:Eb; try reflexivity.
      eapply worker_balance. eapply task_winv; [exact H|exact Ht|exact Eb]. }
    assert (S2 : (list_sum (map (fun t => cnt (reopens id) (owed_on hash b t)) (pr_tasks (wd_process w)))
      <= list_sum (map (fun t => cnt (fun x => aims id (snd x)) (told_on b t)) (pr_tasks (wd_process w))))%nat).
    { apply sum_le. intros t Ht. unfold owed_on, told_on. destruct (Nat.eqb (ta_backend t) b); [|reflexivity]. rewrite cnt_map.
      destruct (ta_body t) as [e wk|e sc z data k|sc cfg k]; cbn [owed].
      - apply cnt_le. intros x Hx. unfold aims. rewrite Hx. reflexivity.
      - rewrite per_firing_quiet; [lia|]. intros next o Ho. unfold cron_calls in Ho. destruct (enc_data (xe_codec e) data); [|destruct Ho].
        destruct Ho as [<-|[]]. reflexivity.
      - rewrite per_firing_quiet; [lia|]. intros next o Ho. apply in_map_iff in Ho. destruct Ho as [q [<- _]]. reflexivity. }
    assert (S3 : (cnt (reopens id) (filter callable (outside b es)) <= cnt (reopens id) (outside b es))%nat).
    { generalize (outside b es). intro l. clear. induction l as [|o l IH]; [reflexivity|]. rewrite cnt_cons. cbn [filter].
      destruct (callable o); rewrite ?cnt_cons; lia. }
    lia.
  Qed.

  Theorem exclusive_thm es w b s : vrun world_init es = Some w -> nth_error (wd_stores w) b = Some s ->
    Z.of_nat (length (filter enqueues_job (c_calls s))) <= 4294967296 ->
    (forall e, In (OpEnqueue e) (outside b es) -> eq_criteria e = None) ->
    (forall o id, In o (outside b es) -> reopens id o = false) ->
    NoDup (map j_id (flat_map (held_on b) (pr_tasks (wd_process w)))).
  Proof.
    intros H Hs Hn Hc Ho. apply (NoDup_count_occ Z.eq_dec). intro id.
    pose proof (holders_thm es w b s id H Hs Hn) as B.
    assert (Z1 : cnt (reopens id) (outside b es) = 0%nat) by (apply cnt_none; intros o Hi; apply Ho; exact Hi).
    assert (Z2 : cnt (wrote_back id) (c_calls s) = 0%nat).
    { apply cnt_none. intros c Hi. pose proof Hi as Hi'. rewrite (store_thm utc upcoming show hash p es w b s H Hs) in Hi'.
      eapply never_back; [exact Hi'|].
      pose proof (Permutation_in _ (calls_thm utc upcoming show hash p es w b s H Hs) (in_map cl_op _ _ Hi)) as Hin.
      apply in_app_or in Hin. destruct Hin as [Hin|Hin].
      - apply filter_In in Hin. destruct Hin as [Hin _]. destruct (cl_op c) eqn:Eo; try reflexivity. cbn. rewrite (Hc _ Hin). reflexivity.
      - apply in_flat_map in Hin. destruct Hin as [t [Ht Hin]]. unfold owed_on in Hin. destruct (Nat.eqb (ta_backend t) b); [|destruct Hin].
        apply in_map_iff in Hin. destruct Hin as [[n o] [<- Hin]]. cbn [snd].
        destruct (owed_never _ _ _ Hin) as [[e [wk Eb]]|Hu]; [|exact Hu]. rewrite Eb in Hin. cbn [owed] in Hin.
        eapply reports_never; eauto. }
    unfold cnt in Z1, Z2. rewrite Z1, Z2 in B.
    replace (count_occ Z.eq_dec (map j_id (flat_map (held_on b) (pr_tasks (wd_process w)))) id)
      with (length (filter (fun j => Z.eqb (j_id j) id) (flat_map (held_on b) (pr_tasks (wd_process w))))); [lia|].
    generalize (flat_map (held_on b) (pr_tasks (wd_process w))). intro l. clear. induction l as [|j l IH]; [reflexivity|].
    cbn [map count_occ filter]. destruct (Z.eq_dec (j_id j) id) as [->|Hne].
    - rewrite Z.eqb_refl. cbn. now rewrite IH.
    - rewrite (proj2 (Z.eqb_neq _ _) Hne). exact IH.
  Qed.
End Once.
