(** Symbolic execution of the conformance suite. *)
From Verif Require Import Base Chrono Types Query Builder Memory PgRow PgQuery Pg Suite.

(** ** From executions to a weakest precondition *)

Section Wp.
  Variable B : subject.
  Variables ticks sleeps : time -> time -> Prop.

  (** What [stream.next()] gives when it gives something. *)
  Inductive yields : su_state B -> time -> string -> time -> su_state B -> result (option job) -> Prop :=
  | yields_now s c ex t s' r :
      ticks c t -> su_step B t s (OpLoad ex) = (s', RJob r) -> r <> Ok None -> yields s c ex t s' r
  | yields_sleep s c ex t0 s0 t1 t s' r :
      ticks c t0 -> su_step B t0 s (OpLoad ex) = (s0, RJob (Ok None)) -> sleeps t0 t1 ->
      yields s0 t1 ex t s' r -> yields s c ex t s' r.

  (** The test passes from here on, whatever happens. *)
  Fixpoint survives (q : prog) (s : su_state B) (c : time) : Prop :=
    match q with
    | Fin b => b = true
    | Now k => forall t, ticks c t -> survives (k t) s t
    | Call o k =>
        forall t s' r, ticks c t -> su_step B t s o = (s', r) -> survives (k r) s' t
    | Next ex k => forall t s' r, yields s c ex t s' r -> survives (k r) s' t
    end.

  Lemma plays_survives q : forall s c b, plays B ticks sleeps s c q b -> survives q s c -> b = true.
  Proof.
    induction q as [k IH|o k IH|ex k IH|b0]; intros s c b Hp Hs.
    - inversion Hp; subst. eapply IH; eauto.
    - inversion Hp; subst. eapply IH; eauto.
    - cbn [survives] in Hs.
      assert (G : exists t s' r, yields s c ex t s' r /\ plays B ticks sleeps s' t (k r) b).
      { clear Hs. remember (Next ex k) as q eqn:Eq. revert ex k IH Eq.
        induction Hp; intros ex0 k0 IH Eq; inversion Eq; subst.
        - exists t, s', r. split; [constructor; assumption|assumption].
        - destruct (IHHp _ _ IH eq_refl) as (t1 & s1 & r1 & Hy & Hp1).
          exists t1, s1, r1. split; [eapply yields_sleep; eauto|assumption]. }
      destruct G as (t & s' & r & Hy & Hp'). eapply IH; eauto.
    - inversion Hp; subst. exact Hs.
  Qed.

  (** A load that finds nothing changes nothing. *)
  Definition idle_load := forall t s ex s', su_step B t s (OpLoad ex) = (s', RJob (Ok None)) -> s' = s.
  Lemma yields_inv : idle_load -> forall s c ex t s' r, yields s c ex t s' r ->
    su_step B t s (OpLoad ex) = (s', RJob r) /\ r <> Ok None /\
    ((ticks c t) \/
     exists t0 t1 t2, ticks c t0 /\ su_step B t0 s (OpLoad ex) = (s, RJob (Ok None)) /\
        sleeps t2 t1 /\ ticks t1 t).
  Proof.
    intros Hi s c ex t s' r Hy.
    induction Hy as [s c ex t s' r Ht Hs Hr|s c ex t0 s0 t1 t s' r Ht Hs Hsl Hy IH].
    - repeat split; auto.
    - pose proof (Hi _ _ _ _ Hs) as E; subst s0. destruct IH as (Hstep & Hn & [Ht1|(a & b & d & _ & _ & Hd & Hb)]).
      + repeat split; auto. right. exists t0, t1, t0. auto.
      + repeat split; auto. right. exists t0, b, d. auto.
  Qed.
End Wp.
Arguments survives : clear implicits.

Lemma idle_memory p : idle_load (memory p).
Proof.
  intros t s ex s'. cbn [memory su_step mem_step]. unfold mem_load.
  destruct (m_poisoned s); [intros H; inversion H|].
  destruct (stable_sort _ _) as [|[i k] l]; [intros H; inversion H; reflexivity|].
  destruct (job_executing p t (kj_job k)); intros H; inversion H.
Qed.
Lemma idle_postgres ident : idle_load (postgres ident).
Proof.
  intros t s ex s'. cbn [postgres su_step pg_step]. unfold pg_load.
  destruct (negb (storable ex)); [intros H; inversion H|].
  destruct (stable_sort _ _) as [|r l]; [intros H; inversion H; reflexivity|].
  destruct (update_rows _ _ _) as [[l' n]|]; [|intros H; inversion H].
  destruct (pg_take t r) as [r'|]; [|intros H; inversion H].
  destruct (job_of_row r'); intros H; inversion H.
Qed.

(** ** Numbers *)

Lemma in_dt_ok x : -100000 * 86400000000000 <= x <= 8210266876799000000000 -> in_dt x = true.
Proof. unfold in_dt, dt_min, dt_max, ns_per_s. lia. Qed.
Lemma pg_time_near x : -1000 < pg_time x - x < 1000.
Proof.
  unfold pg_time.
  pose proof (Z.quot_rem' (x - pg_epoch) 1000). pose proof (Z.rem_bound_abs (x - pg_epoch) 1000). lia.
Qed.
Lemma time_ok_of x : -100000 * 86400000000000 <= x -> time_ok x = true.
Proof.
  intros H. unfold time_ok, bind_time. pose proof (pg_time_near x).
  replace (pg_first <=? pg_time x) with true; [reflexivity|].
  symmetry. apply Z.leb_le. unfold pg_first, pg_epoch, ns_per_s. lia.
Qed.

(** ** Tactics *)

(** Full reduction, except for what depends on the clock. *)
Ltac reduce_in H :=
  cbv -[Z.ltb Z.leb Z.compare Z.add Z.sub Z.abs pg_time time_ok in_dt] in H.
Ltac number z := match isZcst z with true => idtac end.
(** One comparison or sum whose value is known. *)
Ltac settle_in H :=
  match type of H with
  | context [?a + ?b] => number a; number b; let v := eval compute in (a + b) in change (a + b) with v in H
  | context [?a - ?b] => number a; number b; let v := eval compute in (a - b) in change (a - b) with v in H
  | context [?a <? ?b] =>
      first [ rewrite (proj2 (Z.ltb_lt a b)) in H by lia | rewrite (proj2 (Z.ltb_ge a b)) in H by lia ]
  | context [?a <=? ?b] =>
      first [ rewrite (proj2 (Z.leb_le a b)) in H by lia | rewrite (proj2 (Z.leb_gt a b)) in H by lia ]
  | context [?a ?= ?b] =>
      first [ rewrite (proj2 (Z.compare_lt_iff a b)) in H by lia
            | rewrite (proj2 (Z.compare_gt_iff a b)) in H by lia
            | rewrite (proj2 (Z.compare_eq_iff a b)) in H by lia ]
  | context [in_dt ?a] => rewrite (in_dt_ok a) in H by lia
  | context [time_ok ?a] => rewrite (time_ok_of a) in H by lia
  end.
(** The distance of a stored time from the one given. *)
Ltac near :=
  repeat match goal with
  | _ : context [pg_time ?x] |- _ =>
      lazymatch goal with
      | _ : -1000 < pg_time x - x < 1000 |- _ => fail
      | _ => pose proof (pg_time_near x)
      end
  end.
Ltac settled_in H := reduce_in H; near; repeat (settle_in H; reduce_in H; near).
(** A comparison that can go either way. *)
Ltac split_in H :=
  match type of H with
  | context [?a <? ?b] => let C := fresh "C" in destruct (a <? b) eqn:C; [apply Z.ltb_lt in C|apply Z.ltb_ge in C]
  | context [?a <=? ?b] => let C := fresh "C" in destruct (a <=? b) eqn:C; [apply Z.leb_le in C|apply Z.leb_gt in C]
  | context [?a ?= ?b] =>
      let C := fresh "C" in destruct (a ?= b) eqn:C;
      [apply Z.compare_eq_iff in C|apply Z.compare_lt_iff in C|apply Z.compare_gt_iff in C]
  end.
Ltac work_in H := settled_in H; repeat (progress (split_in H); settled_in H).

(** One step of a test. *)
Ltac bounds := unfold ns_per_s, ns_per_ms in *.
Ltac head :=
  lazymatch goal with
  | |- survives _ _ _ ?q _ _ =>
      lazymatch q with
      | Now _ => idtac
      | Call _ _ => idtac
      | Next _ _ => idtac
      | Fin _ => idtac
      | _ => let q' := fresh "q" in let E := fresh "E" in
             remember q as q' eqn:E; settled_in E; subst q'
      end
  end.
Ltac answer H := first [ discriminate H | injection H as <- <- | idtac ].
Ltac advance idle :=
  head;
  lazymatch goal with
  | |- survives _ _ _ (Fin _) _ _ => reflexivity
  | |- survives ?B ?tk ?sl (Now ?k) ?s ?c =>
      let t := fresh "t" in let H := fresh "Ht" in let H' := fresh "Hr" in
      change (forall t, tk c t -> survives B tk sl (k t) s t); intros t [H H']
  | |- survives ?B ?tk ?sl (Call ?o ?k) ?s ?c =>
      let t := fresh "t" in let H := fresh "Ht" in let H' := fresh "Hr" in
      let s' := fresh "s" in let r := fresh "r" in let E := fresh "E" in
      change (forall t s' r, tk c t -> su_step B t s o = (s', r) -> survives B tk sl (k r) s' t);
      intros t s' r [H H'] E; work_in E; answer E
  | |- survives ?B ?tk ?sl (Next ?ex ?k) ?s ?c =>
      let t := fresh "t" in let s' := fresh "s" in let r := fresh "r" in let E := fresh "E" in
      let Hn := fresh "Hn" in let Hc := fresh "Hc" in let Hy := fresh "Hy" in
      change (forall t s' r, yields B tk sl s c ex t s' r -> survives B tk sl (k r) s' t);
      intros t s' r Hy; apply (yields_inv _ _ _ idle) in Hy;
      destruct Hy as (E & Hn & [[Hc ?Hr]|(?t & ?t & ?t & [?Ht ?Hr] & Hc & [?Hs ?Hr] & [?Ht ?Hr])]);
      [|work_in Hc; try discriminate Hc];
      work_in E; answer E; try (exfalso; apply Hn; reflexivity)
  end.
Ltac run idle := repeat advance idle.
