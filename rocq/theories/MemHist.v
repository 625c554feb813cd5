(** Lemmas about histories of the in-memory backend. *)
From Verif Require Import Base Chrono Types TypesProofs Query Memory MemSpec QueryProofs MemProofs.

Definition ids (l : list kjob) : list Z := map (fun k => j_id (kj_job k)) l.

(** Effect of the operations on one job. *)
Inductive one_effect (p : profile) (now : time) : mop -> Z -> job -> job -> Prop :=
| oe_complete id j : one_effect p now (OpComplete id) id j (after_complete now j)
| oe_retryable id t e j :
    one_effect p now (OpRetryable id t e) id j (after_retryable now t (ee_type e) (ee_message e) j)
| oe_discarded id e j :
    one_effect p now (OpDiscarded id e) id j (after_discarded now (ee_type e) (ee_message e) j)
| oe_cancelled id e j :
    one_effect p now (OpCancelled id e) id j (after_cancelled now (ee_type e) (ee_message e) j)
| oe_snoozed id t j j' : job_snoozed p t j = Some j' -> one_effect p now (OpSnoozed id t) id j j'
| oe_rerun id j j' : job_rerunable p now j = Some j' -> one_effect p now (OpRerun id) id j j'
| oe_update j j' : one_effect p now (OpUpdate j') (j_id j') j j'.

(** Results that come with no change to any job. *)
Definition no_effect (o : mop) (r : mres) : Prop :=
  match o, r with
  | OpQuery _, _ | OpSubscribe _, _ | OpNotifyAll, _ | OpPause, _ => True
  | OpLoad _, RJob (Ok None) | OpLoad _, RJob Panic => True
  | OpEnqueue _, RId (Err _) => True
  | (OpComplete _ | OpRetryable _ _ _ | OpDiscarded _ _ | OpCancelled _ _ | OpSnoozed _ _
     | OpRerun _ | OpUpdate _ | OpPrune _), RUnit (Err _) => True
  | (OpSnoozed _ _ | OpRerun _ | OpPrune _), RUnit Panic => True
  | _, _ => False
  end.

Definition key_of (e : enqueuable) : option Z :=
  match eq_criteria e with Some uq => uc_key uq | None => None end.

Inductive jstep (p : profile) (now : time) : mop -> mres -> list kjob -> list kjob -> Prop :=
| js_none o r l : no_effect o r -> jstep p now o r l l
| js_new e id l :
    (forall k, In k l -> ~ conflicts_mem now e k) ->
    jstep p now (OpEnqueue e) (RId (Ok id)) l (l ++ [mk_kjob (new_job now id e) (key_of e)])
| js_conflict e pre k post :
    conflicts_mem now e k ->
    (forall x, In x pre -> ~ conflicts_mem now e x) ->
    jstep p now (OpEnqueue e) (RId (Ok (j_id (kj_job k)))) (pre ++ k :: post)
      (pre ++ mk_kjob (after_conflict e (kj_job k)) (kj_key k) :: post)
| js_load ex pre k post j' :
    due now ex (kj_job k) -> job_executing p now (kj_job k) = Some j' ->
    jstep p now (OpLoad ex) (RJob (Ok (Some j'))) (pre ++ k :: post)
      (pre ++ mk_kjob j' (kj_key k) :: post)
| js_one o id pre k post j' :
    one_effect p now o id (kj_job k) j' -> j_id (kj_job k) = id ->
    (forall x, In x pre -> j_id (kj_job x) <> id) ->
    jstep p now o (RUnit (Ok tt)) (pre ++ k :: post) (pre ++ mk_kjob j' (kj_key k) :: post)
| js_prune ps l l' :
    retained (fun k => in_scope ps (kj_job k)) l l' ->
    jstep p now (OpPrune ps) (RUnit (Ok tt)) l l'.

Lemma retained_filter {A} (P : A -> Prop) (f : A -> bool) l :
  (forall x, f x = false -> P x) -> retained P l (filter f l).
Proof.
  intro H. induction l as [|x l IH]; cbn; [constructor|].
  destruct (f x) eqn:E; [constructor; exact IH | apply ret_drop; auto].
Qed.

Lemma retained_max_length ps n c l :
  retained (fun k => in_scope ps (kj_job k)) l (retain_max_length ps n c l).
Proof.
  revert c. induction l as [|k l IH]; intro c; cbn; [constructor|].
  destruct (prune_matches ps (kj_job k)) eqn:E; [|constructor; apply IH].
  destruct (n <? c + 1); [constructor; apply IH|].
  apply ret_drop; [apply in_scope_spec; exact E | apply IH].
Qed.

Lemma retained_in {A} (P : A -> Prop) l l' : retained P l l' -> forall x, In x l' -> In x l.
Proof. induction 1 as [|y l l' H IH|y l l' Hy H IH]; cbn; firstorder. Qed.

Lemma retained_in_inv {A} (P : A -> Prop) l l' :
  retained P l l' -> forall x, In x l -> ~ P x -> In x l'.
Proof.
  induction 1 as [|y l l' H IH|y l l' Hy H IH]; cbn; intros x Hx Hn.
  - exact Hx.
  - destruct Hx as [<-|Hx]; [left; reflexivity | right; auto].
  - destruct Hx as [<-|Hx]; [contradiction | auto].
Qed.

Lemma retained_map_nodup {A B} (f : A -> B) (P : A -> Prop) l l' :
  retained P l l' -> NoDup (map f l) -> NoDup (map f l').
Proof.
  induction 1 as [|y l l' H IH|y l l' Hy H IH]; cbn; intro Hn; [constructor| |];
    inversion Hn as [|? ? H1 H2]; subst; [|auto].
  constructor; [|auto]. intro Hin. apply H1.
  apply in_map_iff in Hin. destruct Hin as [x [<- Hx]].
  apply in_map. exact (retained_in _ _ _ H x Hx).
Qed.

Lemma filter_cons_split {A} (f : A -> bool) l x rest :
  filter f l = x :: rest ->
  exists pre post, l = pre ++ x :: post /\ f x = true /\ (forall y, In y pre -> f y = false).
Proof.
  induction l as [|a l IH]; cbn; [discriminate|]. destruct (f a) eqn:E.
  - intro H. injection H as <- _. exists [], l. repeat split; auto. intros y [].
  - intro H. destruct (IH H) as [pre [post [-> [H1 H2]]]]. exists (a :: pre), post.
    repeat split; auto. intros y [<-|Hy]; auto.
Qed.

Lemma filter_nil_inv {A} (f : A -> bool) l :
  filter f l = [] -> forall x, In x l -> f x = false.
Proof.
  intros H x Hx. destruct (f x) eqn:E; [|reflexivity].
  assert (Hin : In x (filter f l)) by (apply filter_In; auto). rewrite H in Hin. destruct Hin.
Qed.

Lemma nodup_app_unique {A} (f : A -> Z) l1 x l2 y l1' l2' :
  NoDup (map f (l1 ++ x :: l2)) -> l1 ++ x :: l2 = l1' ++ y :: l2' -> f x = f y ->
  l1 = l1' /\ x = y /\ l2 = l2'.
Proof.
  revert l1'. induction l1 as [|a l1 IH]; cbn; intros [|b l1'] Hn He Hf; cbn in He.
  - injection He as <- <-. auto.
  - injection He as <- ->. exfalso. inversion Hn as [|? ? H1 H2]; subst. apply H1.
    rewrite Hf. apply in_map, in_or_app. right. left. reflexivity.
  - injection He as -> <-. exfalso. inversion Hn as [|? ? H1 H2]; subst. apply H1.
    rewrite <- Hf. apply in_map, in_or_app. right. left. reflexivity.
  - injection He as <- He. inversion Hn as [|? ? H1 H2]; subst.
    destruct (IH _ H2 He Hf) as [-> [-> ->]]. auto.
Qed.

Lemma insert_new_job_ok now m e :
  m_poisoned m = false ->
  exists m', insert_new_job now m e = (m', Ok (m_next_id m))
    /\ m_jobs m' = m_jobs m ++ [mk_kjob (new_job now (m_next_id m) e) (key_of e)]
    /\ m_next_id m' = wrap_i32 (m_next_id m + 1)
    /\ m_poisoned m' = false /\ m_paused m' = m_paused m
    /\ inboxes m' = inboxes (notify_subscribers (eq_executor e) (eq_scheduled_at e) m).
Proof.
  intro Hp. unfold insert_new_job. cbn [m_poisoned]. rewrite Hp.
  eexists. split; [reflexivity|]. rewrite notify_jobs, notify_next_id, notify_poisoned, notify_paused.
  cbn. repeat split; auto. unfold notify_subscribers, inboxes. cbn. destruct (m_paused m); reflexivity.
Qed.

Lemma one_step_with_job p now m o id f nt :
  m_poisoned m = false ->
  (forall j j', f j = Some j' -> one_effect p now o id j j') ->
  no_effect o (RUnit (Err (JobNotFound id))) ->
  (forall j, f j = None -> no_effect o (RUnit Panic)) ->
  let (m', r) := with_job m id f nt in jstep p now o (RUnit r) (m_jobs m) (m_jobs m').
Proof.
  intros Hp Hf Hne Hpan. pose proof (with_job_spec m id f nt Hp) as H.
  destruct (with_job m id f nt) as [m' [u|e|]].
  - destruct H as [pre [k [post [j' [H1 [H2 [H3 [H4 ->]]]]]]]].
    assert (E : m_jobs (let m1 := set_jobs (pre ++ mk_kjob j' (kj_key k) :: post) m in
              if nt then notify_subscribers (j_executor j') (j_scheduled_at j') m1 else m1)
            = pre ++ mk_kjob j' (kj_key k) :: post)
      by (destruct nt; cbn zeta; rewrite ?notify_jobs; reflexivity).
    rewrite E, H1. destruct u. apply js_one with id; auto.
  - destruct H as [-> [-> _]]. apply js_none. exact Hne.
  - destruct H as [-> [pre [k [post [H1 [H2 [H3 H4]]]]]]]. apply js_none. eauto.
Qed.

Lemma mem_step_jstep p now m o :
  NoDup (ids (m_jobs m)) ->
  let (m', r) := mem_step p now m o in jstep p now o r (m_jobs m) (m_jobs m').
Proof.
  intro Hnd. destruct (m_poisoned m) eqn:Hp.
  { destruct o; cbn; unfold mem_enqueue, insert_unique_job, insert_new_job, matching_jobs, mem_load,
      mem_prune, mem_mark_complete, mem_mark_retryable, mem_mark_discarded, mem_mark_cancelled,
      mem_mark_snoozed, mem_rerun, mem_update, with_job; cbn [m_poisoned]; rewrite ?Hp;
      try (apply js_none; exact I).
    destruct (eq_criteria e); apply js_none; exact I. }
  destruct o as [e|ex|id|id t er|id er|id er|id t|ps|id|j|q|ex| |]; cbn [mem_step].
  - unfold mem_enqueue. destruct (eq_criteria e) as [uq|] eqn:Eu.
    + unfold insert_unique_job, matching_jobs. rewrite Hp.
      destruct (filter (enqueuable_matches now e) (m_jobs m)) as [|k rest] eqn:Ef.
      * destruct (insert_new_job_ok now m e Hp) as [m' [-> [-> _]]]. apply js_new.
        intros k Hk Hc. apply enqueuable_matches_spec in Hc.
        rewrite (filter_nil_inv _ _ Ef k Hk) in Hc. discriminate.
      * apply filter_cons_split in Ef. destruct Ef as [pre [post [Hl [Hm Hpre]]]].
        unfold mem_update. rewrite job_replace_spec, after_conflict_id.
        pose proof (with_job_spec m (j_id (kj_job k)) (fun _ => Some (after_conflict e (kj_job k))) true Hp) as H.
        destruct (with_job m (j_id (kj_job k)) _ true) as [m' [u|err|]].
        -- destruct H as [pre' [k' [post' [j' [H1 [H2 [H3 [H4 ->]]]]]]]].
           injection H4 as <-. cbn zeta. rewrite notify_jobs. cbn [set_jobs m_jobs].
           rewrite Hl in H1, Hnd.
           destruct (nodup_app_unique (fun k => j_id (kj_job k)) pre k post k' pre' post' Hnd H1 (eq_sym H2))
             as [<- [<- <-]].
           rewrite Hl. apply js_conflict.
           ++ apply enqueuable_matches_spec. exact Hm.
           ++ intros x Hx Hc. apply enqueuable_matches_spec in Hc. rewrite (Hpre x Hx) in Hc. discriminate.
        -- destruct H as [_ [_ H]]. exfalso. apply (H k); [|reflexivity].
           rewrite Hl. apply in_or_app. right. left. reflexivity.
        -- destruct H as [_ [pre' [k' [post' [_ [_ [_ H]]]]]]]. discriminate.
    + destruct (insert_new_job_ok now m e Hp) as [m' [-> [-> _]]]. apply js_new.
      intros k _ [uq [H _]]. congruence.
  - pose proof (mem_load_spec p now m ex Hp) as H. destruct (mem_load p now m ex) as [m' [[j'|]|err|]].
    + destruct H as [pre [k [post [H1 [H2 [H3 [-> _]]]]]]]. rewrite H1. cbn [set_jobs m_jobs].
      apply js_load; assumption.
    + destruct H as [-> _]. apply js_none. exact I.
    + destruct H.
    + destruct H as [-> _]. apply js_none. exact I.
  - unfold mem_mark_complete.
    pose proof (one_step_with_job p now m (OpComplete id) id (fun j => Some (job_complete now j)) false Hp) as H.
    destruct (with_job _ _ _ _) as [m' r]. apply H; [|exact I|discriminate].
    intros j j' Hj. injection Hj as <-. rewrite job_complete_spec. constructor.
  - unfold mem_mark_retryable.
    pose proof (one_step_with_job p now m (OpRetryable id t er) id (fun j => Some (job_retryable now t er j)) true Hp) as H.
    destruct (with_job _ _ _ _) as [m' r]. apply H; [|exact I|discriminate].
    intros j j' Hj. injection Hj as <-. rewrite job_retryable_spec. constructor.
  - unfold mem_mark_discarded.
    pose proof (one_step_with_job p now m (OpDiscarded id er) id (fun j => Some (job_discarded now er j)) false Hp) as H.
    destruct (with_job _ _ _ _) as [m' r]. apply H; [|exact I|discriminate].
    intros j j' Hj. injection Hj as <-. rewrite job_discarded_spec. constructor.
  - unfold mem_mark_cancelled.
    pose proof (one_step_with_job p now m (OpCancelled id er) id (fun j => Some (job_cancelled now er j)) false Hp) as H.
    destruct (with_job _ _ _ _) as [m' r]. apply H; [|exact I|discriminate].
    intros j j' Hj. injection Hj as <-. rewrite job_cancelled_spec. constructor.
  - unfold mem_mark_snoozed.
    pose proof (one_step_with_job p now m (OpSnoozed id t) id (job_snoozed p t) true Hp) as H.
    destruct (with_job _ _ _ _) as [m' r]. apply H; [|exact I|intros; exact I].
    intros j j' Hj. constructor. exact Hj.
  - unfold mem_prune. rewrite Hp. destruct (ps_by ps) as [d|n].
    + destruct (dt_sub now d) as [lo|]; [|apply js_none; exact I].
      destruct (dt_add now d) as [hi|]; [|apply js_none; exact I].
      cbn [set_jobs m_jobs]. apply js_prune. apply retained_filter.
      intros k Hk. apply orb_false_iff in Hk. destruct Hk as [Hk _].
      apply negb_false_iff in Hk. apply in_scope_spec. exact Hk.
    + cbn [set_jobs m_jobs]. apply js_prune. apply retained_max_length.
  - unfold mem_rerun.
    pose proof (one_step_with_job p now m (OpRerun id) id (job_rerunable p now) true Hp) as H.
    destruct (with_job _ _ _ _) as [m' r]. apply H; [|exact I|intros; exact I].
    intros j j' Hj. constructor. exact Hj.
  - unfold mem_update.
    pose proof (one_step_with_job p now m (OpUpdate j) (j_id j) (fun _ => Some j) true Hp) as H.
    destruct (with_job _ _ _ _) as [m' r]. apply H; [|exact I|discriminate].
    intros j1 j2 Hj. injection Hj as <-. constructor.
  - apply js_none. exact I.
  - apply js_none. exact I.
  - apply js_none. exact I.
  - apply js_none. exact I.
Qed.

Lemma one_effect_id p now o id j j' : one_effect p now o id j j' -> j_id j = id -> j_id j' = id.
Proof.
  intros H Hid. destruct H as [| | | |id t j j' H|id j j' H|]; cbn; auto.
  - unfold job_snoozed in H. destruct (i32_arith p _); [|discriminate]. injection H as <-. exact Hid.
  - unfold job_rerunable in H. destruct (i32_arith p _); [|discriminate]. injection H as <-. exact Hid.
Qed.

Lemma job_executing_id p now j j' : job_executing p now j = Some j' -> j_id j' = j_id j.
Proof.
  unfold job_executing. destruct (i32_arith p _); [|discriminate]. intro H. injection H as <-. reflexivity.
Qed.

(** Every id in the store was there before, or is the one just drawn. *)
Lemma ids_replace pre k post j' key :
  j_id j' = j_id (kj_job k) -> ids (pre ++ mk_kjob j' key :: post) = ids (pre ++ k :: post).
Proof. intro H. unfold ids. rewrite !map_app. cbn. rewrite H. reflexivity. Qed.

Lemma jstep_ids p now o r l l' :
  jstep p now o r l l' ->
  (exists e id, o = OpEnqueue e /\ r = RId (Ok id) /\ ids l' = ids l ++ [id]
      /\ (forall k, In k l -> ~ conflicts_mem now e k))
  \/ ids l' = ids l
  \/ (exists ps, o = OpPrune ps /\ retained (fun k => in_scope ps (kj_job k)) l l').
Proof.
  destruct 1 as [o r l H|e id l H|e pre k post H H0|ex pre k post j' H H0|o id pre k post j' H H0 H1|ps l l' H].
  - right. left. reflexivity.
  - left. exists e, id. repeat split; auto. unfold ids. rewrite map_app. reflexivity.
  - right. left. apply ids_replace. apply after_conflict_id.
  - right. left. apply ids_replace. eapply job_executing_id; eassumption.
  - right. left. apply ids_replace. rewrite H0. eapply one_effect_id; eassumption.
  - right. right. eauto.
Qed.

(** * Ids *)

Lemma with_job_next m id f nt : m_next_id (fst (with_job m id f nt)) = m_next_id m.
Proof.
  unfold with_job. destruct (m_poisoned m); [reflexivity|].
  destruct (split_first _ _) as [[[pre k] post]|]; [|reflexivity].
  destruct (f (kj_job k)); [|reflexivity]. destruct nt; cbn; rewrite ?notify_next_id; reflexivity.
Qed.

Lemma with_job_length m id f nt : length (m_jobs (fst (with_job m id f nt))) = length (m_jobs m).
Proof.
  destruct (m_poisoned m) eqn:Hp; [unfold with_job; rewrite Hp; reflexivity|].
  pose proof (with_job_spec m id f nt Hp) as H. destruct (with_job m id f nt) as [m' [u|e|]]; cbn [fst].
  - destruct H as [pre [k [post [j' [H1 [_ [_ [_ ->]]]]]]]].
    rewrite H1. destruct nt; cbn zeta; rewrite ?notify_jobs; cbn [set_jobs m_jobs];
      rewrite !app_length; reflexivity.
  - destruct H as [-> _]. reflexivity.
  - destruct H as [-> _]. reflexivity.
Qed.

Lemma mem_step_next p now m o :
  let m' := fst (mem_step p now m o) in
  (m_next_id m' = m_next_id m /\ (length (m_jobs m') <= length (m_jobs m))%nat)
  \/ (exists e, o = OpEnqueue e /\ m_next_id m' = wrap_i32 (m_next_id m + 1)
       /\ ((m_jobs m' = m_jobs m /\ m_poisoned m = true)
           \/ (m_jobs m' = m_jobs m ++ [mk_kjob (new_job now (m_next_id m) e) (key_of e)]
               /\ snd (mem_step p now m o) = RId (Ok (m_next_id m))))).
Proof.
  cbn zeta. destruct o as [e|ex|id|id t er|id er|id er|id t|ps|id|j|q|ex| |]; cbn [mem_step].
  - assert (Hins : forall m1 r1, insert_new_job now m e = (m1, r1) ->
       m_next_id m1 = wrap_i32 (m_next_id m + 1) /\
       ((m_jobs m1 = m_jobs m /\ m_poisoned m = true) \/
        (m_jobs m1 = m_jobs m ++ [mk_kjob (new_job now (m_next_id m) e) (key_of e)]
          /\ RId r1 = RId (Ok (m_next_id m))))).
    { intros m1 r1 H. destruct (m_poisoned m) eqn:Hp.
      - unfold insert_new_job in H. cbn [m_poisoned] in H. rewrite Hp in H. injection H as <- <-. cbn. auto.
      - destruct (insert_new_job_ok now m e Hp) as [m' [H' [H1 [H2 _]]]].
        rewrite H' in H. injection H as <- <-. auto. }
    unfold mem_enqueue. destruct (eq_criteria e) as [uq|] eqn:Eu.
    + unfold insert_unique_job. destruct (matching_jobs _ m) as [[|k l]|err|] eqn:Em.
      * right. destruct (insert_new_job now m e) as [m1 r1] eqn:E. exists e.
        destruct (Hins _ _ eq_refl) as [H1 H2]. auto.
      * left. unfold mem_update.
        pose proof (with_job_next m (j_id (job_replace e (kj_job k))) (fun _ => Some (job_replace e (kj_job k))) true) as H1.
        pose proof (with_job_length m (j_id (job_replace e (kj_job k))) (fun _ => Some (job_replace e (kj_job k))) true) as H2.
        destruct (with_job m _ _ true) as [m1 [u|err|]]; cbn in *; split; lia || auto.
      * left. cbn. auto.
      * left. cbn. auto.
    + right. destruct (insert_new_job now m e) as [m1 r1] eqn:E. exists e.
      destruct (Hins _ _ eq_refl) as [H1 H2]. auto.
  - left. unfold mem_load. destruct (m_poisoned m); [cbn; auto|].
    destruct (stable_sort _ _) as [|[i k] rest]; [cbn; auto|].
    destruct (job_executing p now (kj_job k)); cbn; [|auto].
    rewrite set_nth_map_length. auto.
  - left. unfold mem_mark_complete. pose proof (with_job_next m id (fun j => Some (job_complete now j)) false) as H1.
    pose proof (with_job_length m id (fun j => Some (job_complete now j)) false) as H2.
    destruct (with_job _ _ _ _); cbn in *; split; [exact H1 | lia].
  - left. unfold mem_mark_retryable. pose proof (with_job_next m id (fun j => Some (job_retryable now t er j)) true) as H1.
    pose proof (with_job_length m id (fun j => Some (job_retryable now t er j)) true) as H2.
    destruct (with_job _ _ _ _); cbn in *; split; [exact H1 | lia].
  - left. unfold mem_mark_discarded. pose proof (with_job_next m id (fun j => Some (job_discarded now er j)) false) as H1.
    pose proof (with_job_length m id (fun j => Some (job_discarded now er j)) false) as H2.
    destruct (with_job _ _ _ _); cbn in *; split; [exact H1 | lia].
  - left. unfold mem_mark_cancelled. pose proof (with_job_next m id (fun j => Some (job_cancelled now er j)) false) as H1.
    pose proof (with_job_length m id (fun j => Some (job_cancelled now er j)) false) as H2.
    destruct (with_job _ _ _ _); cbn in *; split; [exact H1 | lia].
  - left. unfold mem_mark_snoozed. pose proof (with_job_next m id (job_snoozed p t) true) as H1.
    pose proof (with_job_length m id (job_snoozed p t) true) as H2.
    destruct (with_job _ _ _ _); cbn in *; split; [exact H1 | lia].
  - left. unfold mem_prune. destruct (m_poisoned m); [cbn; auto|]. destruct (ps_by ps) as [d|n].
    + destruct (dt_sub now d); [|cbn; auto]. destruct (dt_add now d); [|cbn; auto].
      cbn. split; [reflexivity|]. clear.
      match goal with |- (length (filter ?f ?l) <= _)%nat => induction l as [|k l' IH] end; cbn; [lia|].
      match goal with |- context [if ?b then _ else _] => destruct b end; cbn; lia.
    + cbn. split; [reflexivity|]. generalize 0. generalize (m_jobs m) as l.
      induction l as [|k l IH]; intro c; cbn; [lia|].
      destruct (prune_matches ps (kj_job k)); [destruct (n <? c + 1)|]; cbn;
        pose proof (IH (c + 1)); pose proof (IH c); lia.
  - left. unfold mem_rerun. pose proof (with_job_next m id (job_rerunable p now) true) as H1.
    pose proof (with_job_length m id (job_rerunable p now) true) as H2.
    destruct (with_job _ _ _ _); cbn in *; split; [exact H1 | lia].
  - left. unfold mem_update. pose proof (with_job_next m (j_id j) (fun _ => Some j) true) as H1.
    pose proof (with_job_length m (j_id j) (fun _ => Some j) true) as H2.
    destruct (with_job _ _ _ _); cbn in *; split; [exact H1 | lia].
  - left. cbn. auto.
  - left. cbn. auto.
  - left. cbn. auto.
  - left. cbn. auto.
Qed.

Definition drawn (n : Z) (id : Z) : Prop := exists k, 0 <= k < n /\ id = wrap_i32 k.

Lemma drawn_fresh n : 0 <= n < 4294967296 -> ~ drawn n (wrap_i32 n).
Proof. intros Hn [k [Hk E]]. apply wrap_i32_inj in E; lia. Qed.

Lemma drawn_mono n n' id : n <= n' -> drawn n id -> drawn n' id.
Proof. intros H [k [Hk E]]. exists k. split; [lia | exact E]. Qed.

Record id_inv (n : Z) (m : mem) : Prop := {
  ii_n : 0 <= n <= 4294967296;
  ii_next : m_next_id m = wrap_i32 n;
  ii_drawn : forall i, In i (ids (m_jobs m)) -> drawn n i;
  ii_nodup : NoDup (ids (m_jobs m))
}.

Definition weight (o : mop) : Z := match o with OpEnqueue _ => 1 | _ => 0 end.

Lemma nodup_snoc {A} (l : list A) x : NoDup l -> ~ In x l -> NoDup (l ++ [x]).
Proof.
  intros H Hx. apply NoDup_Add with x l; [|auto].
  replace l with (l ++ []) at 1 by apply app_nil_r. apply Add_app.
Qed.

Lemma id_inv_step p now m o n :
  id_inv n m -> n + weight o <= 4294967296 ->
  exists n', n <= n' <= n + weight o /\ id_inv n' (fst (mem_step p now m o)).
Proof.
  intros [Hn Hnx Hd Hnd] Hw.
  pose proof (mem_step_next p now m o) as Hs. cbn zeta in Hs.
  pose proof (mem_step_jstep p now m o Hnd) as Hj.
  destruct (mem_step p now m o) as [m' r]. cbn [fst snd] in *.
  apply jstep_ids in Hj.
  destruct Hs as [[Hs1 Hs2]|[e [-> [Hs1 Hs2]]]].
  - exists n. split; [destruct o; cbn; lia|].
    destruct Hj as [[e [id [-> [-> [H _]]]]]|[H|[ps [-> H]]]].
    + exfalso. apply (f_equal (@length Z)) in H. unfold ids in H. rewrite app_length, !map_length in H.
      cbn in H. lia.
    + split; auto; [congruence | rewrite H; exact Hd | rewrite H; exact Hnd].
    + split; auto; [congruence | |].
      * intros i Hi. apply Hd. unfold ids in *. apply in_map_iff in Hi. destruct Hi as [k [<- Hk]].
        apply in_map_iff. exists k. split; [reflexivity|]. eapply retained_in; eassumption.
      * eapply retained_map_nodup; eassumption.
  - cbn in Hw. exists (n + 1). split; [cbn; lia|]. split.
    + lia.
    + rewrite Hs1, Hnx. apply wrap_i32_add.
    + destruct Hs2 as [[-> _]|[-> _]].
      * intros i Hi. apply drawn_mono with n; [lia|]. auto.
      * intros i Hi. unfold ids in Hi. rewrite map_app in Hi. apply in_app_or in Hi. destruct Hi as [Hi|[<-|[]]].
        -- apply drawn_mono with n; [lia|]. auto.
        -- exists n. split; [lia|]. exact Hnx.
    + destruct Hs2 as [[-> _]|[-> _]]; [exact Hnd|].
      unfold ids. rewrite map_app. cbn. apply nodup_snoc; [exact Hnd|].
      rewrite Hnx. intro Hi. apply Hd in Hi. revert Hi. apply drawn_fresh. lia.
Qed.

Lemma id_inv_init : id_inv 0 mem_init.
Proof. split; cbn; [lia|reflexivity|intros i []|constructor]. Qed.

Fixpoint weights (h : list (time * mop)) : Z :=
  match h with [] => 0 | (_, o) :: h' => weight o + weights h' end.

Lemma weights_enqueues h : weights h = enqueues h.
Proof.
  unfold enqueues. induction h as [|[t o] h IH]; cbn [weights filter]; [reflexivity|].
  unfold is_enqueue at 1. cbn [snd]. destruct o; cbn [weight]; rewrite IH; cbn [length]; lia.
Qed.

Lemma weight_nonneg o : 0 <= weight o.
Proof. destruct o; cbn; lia. Qed.
Lemma weights_nonneg h : 0 <= weights h.
Proof. induction h as [|[t o] h IH]; cbn; [lia|]. pose proof (weight_nonneg o). lia. Qed.

Lemma id_inv_run p h m n :
  id_inv n m -> n + weights h <= 4294967296 ->
  exists n', n <= n' <= n + weights h /\ id_inv n' (mem_run p m h).
Proof.
  revert m n. induction h as [|[t o] h IH]; intros m n Hi Hw; cbn [weights mem_run] in *.
  - exists n. split; [lia | exact Hi].
  - pose proof (weights_nonneg h). destruct (id_inv_step p t m o n Hi ltac:(lia)) as [n1 [H1 H2]].
    destruct (IH _ n1 H2 ltac:(lia)) as [n2 [H3 H4]]. exists n2. split; [lia | exact H4].
Qed.

Lemma reached_id_inv p h m : reached p h m -> exists n, 0 <= n <= enqueues h /\ id_inv n m.
Proof.
  intros [-> H]. destruct (id_inv_run p h mem_init 0 id_inv_init) as [n [H1 H2]].
  - rewrite weights_enqueues. exact H.
  - exists n. rewrite weights_enqueues in H1. split; [lia | exact H2].
Qed.

Lemma jobs_of_ids m : map j_id (jobs_of m) = ids (m_jobs m).
Proof. unfold jobs_of, ids. rewrite map_map. reflexivity. Qed.

Lemma reached_nodup p h m : reached p h m -> NoDup (map j_id (jobs_of m)).
Proof. intro H. rewrite jobs_of_ids. apply reached_id_inv in H. destruct H as [n [_ []]]. assumption. Qed.

(** * Attempt numbers and error lists as functions of the trace *)

Lemma after_conflict_attempt e j :
  j_attempt (after_conflict e j) = j_attempt j /\ j_errors (after_conflict e j) = j_errors j
  /\ j_status (after_conflict e j) = j_status j /\ j_executor (after_conflict e j) = j_executor j.
Proof.
  unfold after_conflict. destruct (eq_criteria e) as [uq|]; [|auto].
  destruct (uc_on_conflict uq); [auto|]. destruct in_dec; auto.
Qed.

Lemma nodup_other {A} (f : A -> Z) pre x post y :
  NoDup (map f (pre ++ x :: post)) -> In y pre \/ In y post -> f y <> f x.
Proof.
  rewrite map_app. cbn. intros Hn Hy He. apply NoDup_remove_2 in Hn. apply Hn.
  rewrite <- He. apply in_or_app. destruct Hy; [left|right]; apply in_map; assumption.
Qed.

Lemma ledger_no_effect id st now o r : no_effect o r -> ledger_step id st (now, o, r) = st.
Proof.
  destruct st as [a es]. destruct o, r as [[]|[]|[[]|?|]|[]]; cbn; try reflexivity; try contradiction.
Qed.

Definition small_attempts (b : Z) (l : list kjob) : Prop :=
  forall k, In k l -> - b <= j_attempt (kj_job k) <= b.

Lemma in_mid {A} (x : A) pre y post : In x (pre ++ y :: post) <-> x = y \/ In x pre \/ In x post.
Proof. rewrite in_app_iff. cbn. intuition congruence. Qed.

Lemma jstep_ledger p now o r l l' b :
  jstep p now o r l l' -> NoDup (ids l) -> (forall j, o <> OpUpdate j) ->
  small_attempts b l -> b < 2147483647 ->
  forall k', In k' l' ->
    (exists e id, o = OpEnqueue e /\ r = RId (Ok id)
        /\ k' = mk_kjob (new_job now id e) (key_of e) /\ ids l' = ids l ++ [id])
    \/ (exists k, In k l /\ j_id (kj_job k) = j_id (kj_job k') /\ kj_key k = kj_key k'
        /\ ledger_step (j_id (kj_job k)) (j_attempt (kj_job k), j_errors (kj_job k)) (now, o, r)
           = (j_attempt (kj_job k'), j_errors (kj_job k'))).
Proof.
  intros Hj Hnd Hu Hb Hsmall.
  destruct Hj as [o r l H|e id l H|e pre k post H H0|ex pre k post j' H H0|o id pre k post j' H H0 H1|ps l l' H];
    intros k' Hk'.
  - right. exists k'. repeat split; auto. apply ledger_no_effect. exact H.
  - apply in_app_or in Hk'. destruct Hk' as [Hk'|[<-|[]]].
    + right. exists k'. repeat split; auto.
    + left. exists e, id. repeat split; auto. unfold ids. rewrite map_app. reflexivity.
  - apply in_mid in Hk'. right. destruct Hk' as [->|Hk'].
    + exists k. split; [apply in_mid; auto|]. cbn.
      destruct (after_conflict_attempt e (kj_job k)) as [-> [-> _]].
      rewrite after_conflict_id. auto.
    + exists k'. split; [apply in_mid; auto|]. repeat split; auto.
  - apply in_mid in Hk'. right.
    assert (Hid : j_id j' = j_id (kj_job k)) by (eapply job_executing_id; eassumption).
    destruct Hk' as [->|Hk'].
    + exists k. split; [apply in_mid; auto|]. cbn [kj_job kj_key].
      assert (Hk : -b <= j_attempt (kj_job k) <= b) by (apply Hb, in_mid; auto).
      apply job_executing_ok in H0; [|lia]. subst j'. cbn. repeat split; auto.
      destruct Z.eq_dec; [reflexivity | congruence].
    + exists k'. split; [apply in_mid; auto|]. repeat split; auto. cbn.
      pose proof (nodup_other (fun k => j_id (kj_job k)) pre k post k' Hnd Hk') as Hne. cbn in Hne.
      destruct Z.eq_dec; [congruence | reflexivity].
  - apply in_mid in Hk'. right. destruct Hk' as [->|Hk'].
    + exists k. split; [apply in_mid; auto|]. cbn [kj_job kj_key].
      assert (Hk : -b <= j_attempt (kj_job k) <= b) by (apply Hb, in_mid; auto).
      split; [symmetry; rewrite H0; eapply one_effect_id; eassumption|]. split; [reflexivity|].
      destruct H as [| | | |id t j j' H|id j j' H|j j']; cbn; subst;
        try (destruct Z.eq_dec; [reflexivity|congruence]); try reflexivity.
      * apply job_snoozed_spec in H; [|lia]. subst j'. destruct Z.eq_dec; [reflexivity|congruence].
      * unfold job_rerunable in H. destruct (i32_arith p _); [|discriminate]. injection H as <-. reflexivity.
      * exfalso. apply (Hu j'). reflexivity.
    + exists k'. split; [apply in_mid; auto|]. repeat split; auto.
      pose proof (nodup_other (fun k => j_id (kj_job k)) pre k post k' Hnd Hk') as Hne. cbn in Hne.
      rewrite H0 in Hne.
      destruct H; cbn; try (destruct Z.eq_dec; [congruence | reflexivity]); reflexivity.
  - right. exists k'. split; [eapply retained_in; eassumption|]. repeat split; auto.
Qed.

(** An id whose ledger entry is touched by a step is the id of a stored job. *)
Lemma jstep_ledger_stored p now o r l l' id st :
  jstep p now o r l l' -> ~ In id (ids l) -> ledger_step id st (now, o, r) = st.
Proof.
  intros Hj Hn. destruct st as [a es].
  destruct Hj as [o r l H|e id0 l H|e pre k post H H0|ex pre k post j' H H0|o id0 pre k post j' H H0 H1|ps l l' H];
    try reflexivity.
  - apply ledger_no_effect. exact H.
  - cbn. destruct Z.eq_dec as [E|E]; [|reflexivity]. exfalso. apply Hn.
    rewrite <- E, (job_executing_id _ _ _ _ H0). unfold ids.
    apply (in_map (fun k => j_id (kj_job k))). apply in_mid. auto.
  - assert (Hne : id0 <> id).
    { intros <-. apply Hn. rewrite <- H0.
      apply (in_map (fun k => j_id (kj_job k))). apply in_mid. auto. }
    destruct H; cbn; try (destruct Z.eq_dec; [congruence | reflexivity]); reflexivity.
Qed.

Lemma ledger_snoc id tr ev : ledger id (tr ++ [ev]) = ledger_step id (ledger id tr) ev.
Proof. unfold ledger. rewrite fold_left_app. reflexivity. Qed.

Lemma ledger_step_bound id st ev : Z.abs (fst (ledger_step id st ev)) <= Z.abs (fst st) + 1.
Proof.
  destruct st as [a es]. destruct ev as [[now o] r].
  destruct o, r as [[]|[]|[[]|?|]|[]]; cbn; try lia;
    try (destruct Z.eq_dec; cbn; lia).
Qed.

Record ledger_inv (n : Z) (tr : list event) (m : mem) : Prop := {
  li_id : id_inv n m;
  li_jobs : forall k, In k (m_jobs m) ->
     ledger (j_id (kj_job k)) tr = (j_attempt (kj_job k), j_errors (kj_job k));
  li_undrawn : forall id, ~ drawn n id -> ledger id tr = (0, []);
  li_small : forall id, Z.abs (fst (ledger id tr)) <= Z.of_nat (length tr)
}.

Lemma ledger_inv_init : ledger_inv 0 [] mem_init.
Proof.
  split; cbn; [apply id_inv_init | intros k [] | reflexivity | intro; lia].
Qed.

Lemma ledger_inv_step p now m o n tr :
  ledger_inv n tr m -> (forall j, o <> OpUpdate j) -> n + weight o <= 4294967296 ->
  Z.of_nat (length tr) < 2147483647 ->
  exists n', n <= n' <= n + weight o
    /\ ledger_inv n' (tr ++ [(now, o, snd (mem_step p now m o))]) (fst (mem_step p now m o)).
Proof.
  intros [Hid Hjobs Hun Hsm] Hu Hw Hlen.
  destruct (id_inv_step p now m o n Hid Hw) as [n' [Hn' Hid']]. exists n'. split; [exact Hn'|].
  pose proof Hid as [Hn Hnx Hd Hnd]. pose proof Hid' as [_ _ Hd' Hnd'].
  pose proof (mem_step_jstep p now m o Hnd) as Hj.
  pose proof (mem_step_next p now m o) as Hs. cbn zeta in Hs.
  destruct (mem_step p now m o) as [m' r]. cbn [fst snd] in *.
  assert (Hb : small_attempts (Z.of_nat (length tr)) (m_jobs m)).
  { intros k Hk. pose proof (Hsm (j_id (kj_job k))) as H. rewrite (Hjobs k Hk) in H. cbn in H. lia. }
  split; [exact Hid' | | |].
  - intros k' Hk'. rewrite ledger_snoc.
    destruct (jstep_ledger p now o r _ _ _ Hj Hnd Hu Hb Hlen k' Hk')
      as [[e [id [-> [-> [-> Hids]]]]]|[k [Hk [Hki [_ Hl]]]]].
    + cbn [kj_job new_job j_id j_attempt j_errors].
      assert (Hnew : ~ drawn n id).
      { intro Hdr. rewrite Hids in Hnd'.
        destruct Hs as [[_ Hs]|[e' [He [_ [[Hs Hs']|[Hs Hs']]]]]].
        - apply (f_equal (@length Z)) in Hids. unfold ids in Hids.
          rewrite app_length, !map_length in Hids. cbn in Hids. lia.
        - rewrite Hs in Hids. apply (f_equal (@length Z)) in Hids. rewrite app_length in Hids.
          cbn in Hids. lia.
        - injection Hs' as ->. rewrite Hnx in Hdr. cbn in Hw.
          revert Hdr. apply drawn_fresh. lia. }
      rewrite (Hun id Hnew). reflexivity.
    + rewrite <- Hki, (Hjobs k Hk). rewrite Hl. reflexivity.
  - intros id Hid0. rewrite ledger_snoc.
    assert (Hn0 : ~ drawn n id) by (intro H; apply Hid0; eapply drawn_mono; [|exact H]; lia).
    rewrite (Hun id Hn0). eapply jstep_ledger_stored; [exact Hj|]. intro H. apply Hn0. auto.
  - intro id. rewrite ledger_snoc, app_length. cbn [length].
    pose proof (ledger_step_bound id (ledger id tr) (now, o, r)). pose proof (Hsm id). lia.
Qed.

Lemma ledger_inv_run p h : forall m n tr,
  ledger_inv n tr m -> no_updates h -> n + weights h <= 4294967296 ->
  Z.of_nat (length tr + length h) <= 2147483647 ->
  exists n', ledger_inv n' (tr ++ mem_trace p m h) (mem_run p m h).
Proof.
  induction h as [|[now o] h IH]; intros m n tr Hi Hu Hw Hlen; cbn [mem_trace mem_run weights] in *.
  - exists n. rewrite app_nil_r. exact Hi.
  - pose proof (weights_nonneg h).
    assert (Huo : forall j, o <> OpUpdate j)
      by (intros j ->; apply (Hu now j); left; reflexivity).
    cbn [length] in Hlen.
    destruct (ledger_inv_step p now m o n tr Hi Huo ltac:(lia) ltac:(lia)) as [n1 [H1 H2]].
    destruct (mem_step p now m o) as [m1 r] eqn:E. cbn [fst snd] in *.
    destruct (IH m1 n1 _ H2) as [n2 H3].
    + intros t j Hin. apply (Hu t j). right. exact Hin.
    + lia.
    + rewrite app_length. cbn [length]. lia.
    + exists n2. rewrite <- app_assoc in H3. exact H3.
Qed.

Lemma ledger_of_reached p h m :
  reached p h m -> no_updates h -> Z.of_nat (length h) <= 2147483647 ->
  forall j, In j (jobs_of m) ->
    ledger (j_id j) (mem_trace p mem_init h) = (j_attempt j, j_errors j).
Proof.
  intros [-> He] Hu Hl j Hj.
  destruct (ledger_inv_run p h mem_init 0 [] ledger_inv_init Hu) as [n H].
  - rewrite weights_enqueues. exact He.
  - cbn. exact Hl.
  - unfold jobs_of in Hj. apply in_map_iff in Hj. destruct Hj as [k [<- Hk]].
    exact (li_jobs _ _ _ H k Hk).
Qed.

Lemma ledger_counts id tr :
  fst (ledger id tr) = count (hands_out id) tr - count (snoozes id) tr.
Proof.
  induction tr as [|ev tr IH] using rev_ind; [reflexivity|].
  rewrite ledger_snoc. unfold count in *. rewrite !filter_app, !app_length. cbn [filter].
  destruct (ledger id tr) as [a es]. cbn in IH. destruct ev as [[now o] r].
  destruct o, r as [[]|[]|[[]|?|]|[]]; cbn; try lia.
  all: try (match goal with |- context [Z.eq_dec ?x ?y] => destruct (Z.eq_dec x y) as [E|E];
         [try (rewrite E) | ] end).
  all: repeat match goal with |- context [?x =? ?y] => destruct (Z.eqb_spec x y) end; cbn; try lia.
Qed.
