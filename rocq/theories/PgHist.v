(** Lemmas about histories of the Postgres backend. *)
From Coq Require Import Permutation Sorted.
From Verif Require Import Base Chrono Types TypesProofs Query QueryProofs Memory MemSpec MemProofs
  MemInv PgRow PgQuery Pg PgSpec PgProofs PgQueryProofs PgOps.

Definition readable (r : row) : Prop := exists j, represents r j.

(** What one operation does to the row it changes. *)
Definition row_change (o : mop) (res : mres) (r r' : row) : Prop :=
  match o with
  | OpEnqueue _ => r_status r' = r_status r /\ r_attempt r' = r_attempt r /\ r_errors r' = r_errors r /\ res = RId (Ok (r_id r))
  | OpLoad ex =>
      r_status r' = "executing"%string /\ r_attempt r' = r_attempt r + 1 /\ r_errors r' = r_errors r
      /\ ((exists j, represents r' j /\ res = RJob (Ok (Some j)))
          \/ (~ readable r' /\ exists e, res = RJob (Err e)))
  | OpComplete id =>
      r_id r = id /\ res = RUnit (Ok tt) /\ r_status r' = "complete"%string /\ r_attempt r' = r_attempt r /\ r_errors r' = r_errors r
  | OpRetryable id _ e =>
      r_id r = id /\ res = RUnit (Ok tt) /\ r_status r' = "retryable"%string /\ r_attempt r' = r_attempt r
      /\ exists se, r_errors r' = r_errors r ++ [se] /\ se_attempt se = r_attempt r /\ se_details se = ee_message e
  | OpDiscarded id e =>
      r_id r = id /\ res = RUnit (Ok tt) /\ r_status r' = "discarded"%string /\ r_attempt r' = r_attempt r
      /\ exists se, r_errors r' = r_errors r ++ [se] /\ se_attempt se = r_attempt r /\ se_details se = ee_message e
  | OpCancelled id e =>
      r_id r = id /\ res = RUnit (Ok tt) /\ r_status r' = "cancelled"%string /\ r_attempt r' = r_attempt r
      /\ exists se, r_errors r' = r_errors r ++ [se] /\ se_attempt se = r_attempt r /\ se_details se = ee_message e
  | OpSnoozed id _ =>
      r_id r = id /\ res = RUnit (Ok tt) /\ (r_status r' = "scheduled"%string \/ r_status r' = "retryable"%string)
      /\ r_attempt r' = r_attempt r - 1 /\ r_errors r' = r_errors r
  | OpRerun id =>
      r_id r = id /\ res = RUnit (Ok tt) /\ (r_status r' = "scheduled"%string \/ r_status r' = "retryable"%string)
      /\ r_attempt r' = r_attempt r /\ r_errors r' = r_errors r
  | OpUpdate j => r_id r = j_id j /\ res = RUnit (Ok tt) /\ r_status r' = r_status r /\ r_attempt r' = r_attempt r /\ r_errors r' = r_errors r
  | _ => False
  end.

(** What the operation leaves of what the job is for. *)
Definition same_purpose (r r' : row) : Prop :=
  r_data r' = r_data r /\ r_metadata r' = r_metadata r /\ r_priority r' = r_priority r /\ r_tags r' = r_tags r.
Definition purpose_change (o : mop) (r r' : row) : Prop :=
  r_executor r' = r_executor r /\ r_inserted_at r' = r_inserted_at r /\ r_uniqueness_key r' = r_uniqueness_key r
  /\ match o with
     | OpUpdate _ => True
     | OpEnqueue _ => r_tags r' = r_tags r /\ replacing_enqueue o
     | _ => same_purpose r r'
     end.

(** The result of an operation that leaves the table alone. *)
Definition quiet (o : mop) (res : mres) (t : tbl) : Prop :=
  match o with
  | OpLoad _ => res = RJob (Ok None) \/ exists e, res = RJob (Err e)
  | OpComplete _ | OpRetryable _ _ _ | OpDiscarded _ _ | OpCancelled _ _ | OpSnoozed _ _ | OpRerun _ | OpUpdate _ =>
      exists e, res = RUnit (Err e)
  | OpEnqueue _ => match res with RId (Ok id) => In id (map r_id (t_rows t)) | RId _ => True | _ => False end
  | _ => True
  end.

Definition appended (now : time) (t t' : tbl) (o : mop) (res : mres) : Prop :=
  exists e key, o = OpEnqueue e /\ res = RId (Ok (t_next t)) /\ t_next t <= 2147483647
    /\ t' = mk_tbl (t_rows t ++ [new_row now (t_next t) key e]) (t_next t + 1).
Definition rewritten (t t' : tbl) (o : mop) (res : mres) : Prop :=
  exists pre r r' post, t_rows t = pre ++ r :: post /\ t' = mk_tbl (pre ++ r' :: post) (t_next t)
    /\ r_id r' = r_id r /\ row_change o res r r' /\ purpose_change o r r'.
Definition thinned (t t' : tbl) (o : mop) (res : mres) : Prop :=
  exists ps keep, o = OpPrune ps /\ res = RUnit (Ok tt) /\ t' = mk_tbl (filter keep (t_rows t)) (t_next t).

Lemma update_by_id_cases ok id f t t' res : NoDup (map r_id (t_rows t)) -> pg_update_by_id ok id f t = (t', res) ->
  (t' = t /\ exists e, res = Err e)
  \/ (res = Ok tt /\ exists pre r r' post, t_rows t = pre ++ r :: post /\ t' = mk_tbl (pre ++ r' :: post) (t_next t)
        /\ r_id r = id /\ f r = Some r').
Proof.
  intros Hn. unfold pg_update_by_id. destruct ok; cbn [negb]; [|intro H; injection H as <- <-; left; eauto].
  pose proof (update_rows_spec id f (t_rows t) Hn) as H. destruct (update_rows id f (t_rows t)) as [[l n]|].
  - destruct H as [[-> [-> _]]|[-> [pre [r [r' [post [E [-> [E2 [E3 _]]]]]]]]]]; intro H; injection H as <- <-.
    + left. split; [destruct t; reflexivity|eauto].
    + right. split; [reflexivity|]. exists pre, r, r', post. auto.
  - intro H'. injection H' as <- <-. left. eauto.
Qed.

Lemma job_of_row_cases r : (exists j, job_of_row r = Ok j /\ represents r j)
  \/ (~ readable r /\ exists e, job_of_row r = Err e).
Proof.
  destruct (job_of_row r) as [j|e|] eqn:E.
  - left. exists j. split; [reflexivity|apply represents_iff; exact E].
  - right. split; [|eauto]. intros [j Hj]. apply represents_iff in Hj. congruence.
  - exfalso. unfold job_of_row in E. destruct (status_of_label (r_status r)); [|discriminate].
    destruct (collect (map read_error (r_errors r))); discriminate.
Qed.

Lemma insert_cases now key e t t' res : pg_insert now key e t = (t', res) ->
  (t' = t /\ exists er, res = Err er)
  \/ (res = Ok (t_next t) /\ t_next t <= 2147483647 /\ t' = mk_tbl (t_rows t ++ [new_row now (t_next t) key e]) (t_next t + 1)).
Proof.
  unfold pg_insert. destruct (pg_request_ok e); cbn [negb]; [|intro H; injection H as <- <-; left; eauto].
  destruct (Z.ltb_spec 2147483647 (t_next t)); intro H'; injection H' as <- <-; [left; eauto|right; auto].
Qed.

Lemma assignments_keep rp e r :
  let r' := fold_left (fun r1 (a : bool * (row -> row)) => snd a r1) (pg_assignments rp e) r in
  r_id r' = r_id r /\ r_status r' = r_status r /\ r_attempt r' = r_attempt r /\ r_errors r' = r_errors r
  /\ r_executor r' = r_executor r /\ r_inserted_at r' = r_inserted_at r /\ r_uniqueness_key r' = r_uniqueness_key r
  /\ r_tags r' = r_tags r.
Proof.
  cbv zeta. unfold pg_assignments.
  destruct (rp_scheduled_at rp), (rp_data rp), (rp_metadata rp), (rp_priority rp), (rp_max_attempts rp); cbn; auto 10.
Qed.

Lemma pg_step_cases ident now t o t' res : NoDup (map r_id (t_rows t)) -> pg_step ident now t o = (t', res) ->
  (t' = t /\ quiet o res t) \/ appended now t t' o res \/ rewritten t t' o res \/ thinned t t' o res.
Proof.
  intros Hn Hs.
  destruct o; cbn [pg_step] in Hs.
  - (* enqueue *)
    destruct (pg_enqueue ident now e t) as [t1 r] eqn:E. injection Hs as -> <-. unfold pg_enqueue in E.
    assert (Hins : forall key, pg_insert now key e t = (t', r) -> (t' = t /\ quiet (OpEnqueue e) (RId r) t) \/ appended now t t' (OpEnqueue e) (RId r)).
    { intros key Hi. apply insert_cases in Hi. destruct Hi as [[-> [er ->]]|[-> [Hb ->]]].
      - left. split; [reflexivity|exact I].
      - right. exists e, key. auto. }
    destruct (eq_criteria e) as [uq|] eqn:Euq; [|apply Hins in E; tauto].
    unfold pg_insert_unique in E. destruct (pg_window uq (eq_scheduled_at e)) as [w|]; [|injection E as <- <-; left; split; [reflexivity|exact I]].
    destruct (pg_window_ok uq (eq_executor e) w); cbn [negb] in E; [|injection E as <- <-; left; split; [reflexivity|exact I]].
    destruct (find (pg_conflict uq (eq_executor e) w) (t_rows t)) as [r0|] eqn:Ef; [|apply Hins in E; tauto].
    apply find_some in Ef. destruct Ef as [Hin _].
    assert (Hq : quiet (OpEnqueue e) (RId (Ok (r_id r0))) t) by (cbn; apply in_map, Hin).
    destruct (pg_resolve uq e r0 t) as [t1|] eqn:Er; [|injection E as <- <-; left; split; [reflexivity|exact I]].
    injection E as <- <-. unfold pg_resolve in Er. destruct (uc_on_conflict uq) as [|rp] eqn:Eoc; [injection Er as <-; left; auto|].
    destruct (existsb (fun s => String.eqb (label s) (r_status r0)) (rp_for_statuses rp)); [|injection Er as <-; left; auto].
    unfold pg_replace in Er. destruct (pg_assignments rp e) as [|a l] eqn:Ea; [discriminate|]. rewrite <- Ea in Er.
    destruct (forallb fst (pg_assignments rp e)); [|discriminate].
    set (f := fun r1 => Some (fold_left (fun r2 (a0 : bool * (row -> row)) => snd a0 r2) (pg_assignments rp e) r1)) in Er.
    pose proof (update_rows_spec (r_id r0) f (t_rows t) Hn) as Hu. destruct (update_rows (r_id r0) f (t_rows t)) as [[rows n]|]; [|discriminate].
    injection Er as <-. destruct Hu as [[-> [-> _]]|[-> [pre [r [r' [post [E [-> [E2 [E3 _]]]]]]]]]].
    + left. split; [destruct t; reflexivity|exact Hq].
    + right. right. left. exists pre, r, r', post. unfold f in E3. injection E3 as <-.
      destruct (assignments_keep rp e r) as [K1 [K2 [K3 [K4 [K5 [K6 [K7 K8]]]]]]]. split; [exact E|]. split; [reflexivity|]. split; [exact K1|].
      split; [split; [exact K2|]; split; [exact K3|]; split; [exact K4|congruence]|].
      split; [exact K5|]. split; [exact K6|]. split; [exact K7|]. split; [exact K8|]. cbn. exists uq, rp. auto.
  - (* load *)
    destruct (pg_load now executor t) as [t1 r] eqn:E. injection Hs as -> <-. unfold pg_load in E.
    destruct (storable executor); cbn [negb] in E; [|injection E as <- <-; left; split; [reflexivity|right; eauto]].
    pose proof (stable_sort_head pg_leb pg_leb_total pg_leb_trans (filter (pg_ready now executor) (t_rows t))) as Hh.
    destruct (stable_sort pg_leb (filter (pg_ready now executor) (t_rows t))) as [|r0 l]; [injection E as <- <-; left; split; [reflexivity|left; reflexivity]|].
    destruct Hh as [fpre [fpost [Ef _]]].
    assert (Hin : In r0 (t_rows t)).
    { assert (H : In r0 (filter (pg_ready now executor) (t_rows t))) by (rewrite Ef; apply in_or_app; right; left; reflexivity).
      apply filter_In in H. tauto. }
    destruct (pg_take now r0) as [r1|] eqn:Et.
    + apply in_split in Hin. destruct Hin as [pre [post Es]]. rewrite Es in Hn. rewrite Es, (update_rows_one pre r0 post _ r1 Et Hn) in E.
      unfold pg_take in Et. destruct (int4 (r_attempt r0 + 1)) as [a|] eqn:Ei; [|discriminate]. injection Et as <-.
      unfold int4 in Ei. destruct (in_i32 (r_attempt r0 + 1)); [|discriminate]. injection Ei as <-.
      right. right. left. exists pre, r0. eexists. exists post. split; [exact Es|].
      match type of E with context [job_of_row ?x] => destruct (job_of_row_cases x) as [[j [Ej Hj]]|[Hno [er Ej]]]; rewrite Ej in E end;
        injection E as <- <-; (split; [reflexivity|]; split; [reflexivity|]; split; [|repeat split]; split; [reflexivity|]; split; [reflexivity|]; split; [reflexivity|]).
      * left. eauto.
      * right. eauto.
    + destruct (update_rows (r_id r0) (pg_take now) (t_rows t)) as [[? ?]|]; injection E as <- <-; left; (split; [reflexivity|right; eauto]).
  - (* complete *)
    destruct (pg_complete now id t) as [t1 r] eqn:E. injection Hs as -> <-. apply update_by_id_cases in E; [|exact Hn].
    destruct E as [[-> [e ->]]|[-> [pre [r0 [r' [post [E1 [-> [E2 E3]]]]]]]]]; [left; split; [reflexivity|cbn; eauto]|].
    injection E3 as <-. right. right. left. exists pre, r0. eexists. exists post. cbn. repeat split; assumption.
  - destruct (pg_retryable now id t0 e t) as [t1 r] eqn:E. injection Hs as -> <-. apply update_by_id_cases in E; [|exact Hn].
    destruct E as [[-> [er ->]]|[-> [pre [r0 [r' [post [E1 [-> [E2 E3]]]]]]]]]; [left; split; [reflexivity|cbn; eauto]|].
    injection E3 as <-. right. right. left. exists pre, r0. eexists. exists post. cbn.
    split; [exact E1|]. split; [reflexivity|]. split; [reflexivity|]. split; [|repeat split].
    repeat (split; [first [assumption|reflexivity]|]). eexists. cbn. auto.
  - destruct (pg_discarded now id e t) as [t1 r] eqn:E. injection Hs as -> <-. apply update_by_id_cases in E; [|exact Hn].
    destruct E as [[-> [er ->]]|[-> [pre [r0 [r' [post [E1 [-> [E2 E3]]]]]]]]]; [left; split; [reflexivity|cbn; eauto]|].
    injection E3 as <-. right. right. left. exists pre, r0. eexists. exists post. cbn.
    split; [exact E1|]. split; [reflexivity|]. split; [reflexivity|]. split; [|repeat split].
    repeat (split; [first [assumption|reflexivity]|]). eexists. cbn. auto.
  - destruct (pg_cancelled now id e t) as [t1 r] eqn:E. injection Hs as -> <-. apply update_by_id_cases in E; [|exact Hn].
    destruct E as [[-> [er ->]]|[-> [pre [r0 [r' [post [E1 [-> [E2 E3]]]]]]]]]; [left; split; [reflexivity|cbn; eauto]|].
    injection E3 as <-. right. right. left. exists pre, r0. eexists. exists post. cbn.
    split; [exact E1|]. split; [reflexivity|]. split; [reflexivity|]. split; [|repeat split].
    repeat (split; [first [assumption|reflexivity]|]). eexists. cbn. auto.
  - destruct (pg_snoozed id t0 t) as [t1 r] eqn:E. injection Hs as -> <-. apply update_by_id_cases in E; [|exact Hn].
    destruct E as [[-> [er ->]]|[-> [pre [r0 [r' [post [E1 [-> [E2 E3]]]]]]]]]; [left; split; [reflexivity|cbn; eauto]|].
    unfold int4 in E3. destruct (in_i32 (r_attempt r0 - 1)); [|discriminate].
    injection E3 as <-. right. right. left. exists pre, r0. eexists. exists post. cbn.
    split; [exact E1|]. split; [reflexivity|]. split; [reflexivity|]. split; [|repeat split].
    repeat (split; [first [assumption|reflexivity]|]). split; [destruct (r_attempt r0 =? 1); auto|]. auto.
  - (* prune *)
    destruct (pg_prune now ps t) as [t1 r] eqn:E. injection Hs as -> <-. unfold pg_prune in E.
    destruct (pg_doomed now ps (t_rows t)) as [[ids|]|]; try (injection E as <- <-; left; split; [reflexivity|exact I]).
    destruct (pg_spec_ok (ps_executors ps)); injection E as <- <-; [|left; split; [reflexivity|exact I]].
    right. right. right. exists ps. eexists. auto.
  - destruct (pg_rerun now id t) as [t1 r] eqn:E. injection Hs as -> <-. apply update_by_id_cases in E; [|exact Hn].
    destruct E as [[-> [er ->]]|[-> [pre [r0 [r' [post [E1 [-> [E2 E3]]]]]]]]]; [left; split; [reflexivity|cbn; eauto]|].
    unfold int4 in E3. destruct (in_i32 (r_max_attempts r0 + 1)); [|discriminate].
    injection E3 as <-. right. right. left. exists pre, r0. eexists. exists post. cbn.
    split; [exact E1|]. split; [reflexivity|]. split; [reflexivity|]. split; [|repeat split].
    repeat (split; [first [assumption|reflexivity]|]). split; [destruct (r_attempt r0 =? 1); auto|]. auto.
  - destruct (pg_update j t) as [t1 r] eqn:E. injection Hs as -> <-. apply update_by_id_cases in E; [|exact Hn].
    destruct E as [[-> [er ->]]|[-> [pre [r0 [r' [post [E1 [-> [E2 E3]]]]]]]]]; [left; split; [reflexivity|cbn; eauto]|].
    injection E3 as <-. right. right. left. exists pre, r0. eexists. exists post. cbn. repeat split; assumption.
  - injection Hs as <- <-. left. split; [reflexivity|exact I].
  - injection Hs as <- <-. left. split; [reflexivity|exact I].
  - injection Hs as <- <-. left. split; [reflexivity|exact I].
  - injection Hs as <- <-. left. split; [reflexivity|exact I].
Qed.

(** * Ids *)

Definition ids_ok (t : tbl) : Prop :=
  NoDup (map r_id (t_rows t)) /\ (forall r, In r (t_rows t) -> 1 <= r_id r < t_next t) /\ 1 <= t_next t <= 2147483648.

Lemma ids_ok_init : ids_ok tbl_init.
Proof. split; [constructor|]. split; [intros r []|cbn; lia]. Qed.

Lemma rewritten_ids t t' o res : rewritten t t' o res -> map r_id (t_rows t') = map r_id (t_rows t) /\ t_next t' = t_next t.
Proof.
  intros [pre [r [r' [post [E [-> [Hid _]]]]]]]. cbn. rewrite E, !map_app. cbn. rewrite Hid. auto.
Qed.

Lemma nodup_filter_map {A B} (f : A -> B) p l : NoDup (map f l) -> NoDup (map f (filter p l)).
Proof.
  induction l as [|x l IH]; cbn; [constructor|]. intro H. inversion H as [|? ? Hx Hn]; subst.
  destruct (p x); cbn; [|auto]. constructor; [|auto]. intro Hi. apply Hx. apply in_map_iff in Hi.
  destruct Hi as [y [E Hy]]. apply filter_In in Hy. rewrite <- E. apply in_map. tauto.
Qed.

Lemma step_ids ident now t o : ids_ok t -> ids_ok (fst (pg_step ident now t o)) /\ t_next t <= t_next (fst (pg_step ident now t o)).
Proof.
  intros [Hn [Hr Hb]]. destruct (pg_step ident now t o) as [t' res] eqn:E. cbn [fst].
  apply pg_step_cases in E; [|exact Hn]. destruct E as [[-> _]|[[e [key [_ [_ [Hm ->]]]]]|[H|[ps [keep [_ [_ ->]]]]]]].
  - split; [split; [exact Hn|auto]|lia].
  - split; [|cbn; lia]. split; [|split].
    + cbn. rewrite map_app. cbn. apply (Permutation_NoDup (l := t_next t :: map r_id (t_rows t))); [apply Permutation_cons_append|].
      constructor; [|exact Hn]. intro Hi. apply in_map_iff in Hi. destruct Hi as [r [E Hi]]. specialize (Hr r Hi). lia.
    + cbn. intros r Hi. apply in_app_or in Hi. destruct Hi as [Hi|[<-|[]]]; [specialize (Hr r Hi); lia|cbn; lia].
    + cbn. lia.
  - destruct (rewritten_ids _ _ _ _ H) as [H1 H2]. split; [|lia]. split; [rewrite H1; exact Hn|]. split; [|lia].
    intros r Hi. apply (in_map r_id) in Hi. rewrite H1 in Hi. apply in_map_iff in Hi. destruct Hi as [r0 [<- Hi]].
    rewrite H2. auto.
  - split; [|cbn; lia]. split; [apply nodup_filter_map; exact Hn|]. split; [|exact Hb].
    cbn. intros r Hi. apply filter_In in Hi. apply Hr. tauto.
Qed.

Lemma run_ids ident h : forall t, ids_ok t -> ids_ok (pg_run ident t h) /\ t_next t <= t_next (pg_run ident t h).
Proof.
  induction h as [|[now o] h IH]; intros t Ht; cbn [pg_run]; [split; [exact Ht|lia]|].
  destruct (step_ids ident now t o Ht) as [H1 H2]. destruct (IH _ H1) as [H3 H4]. split; [exact H3|lia].
Qed.

Lemma run_app ident h1 : forall t h2, pg_run ident t (h1 ++ h2) = pg_run ident (pg_run ident t h1) h2.
Proof. induction h1 as [|[now o] h1 IH]; intros t h2; cbn [app pg_run]; [reflexivity|apply IH]. Qed.

(** * Readable rows *)

Definition readable_parts (r : row) : Prop :=
  (exists s, spelled s (r_status r)) /\ Forall (fun se => 0 <= se_attempt se <= 65535) (r_errors r).
Lemma readable_iff r : readable r <-> readable_parts r.
Proof.
  split.
  - intros [j H]. row_fields H. split; [eauto|].
    clear -R10. induction R10 as [|se je l l' [H _] _ IH]; constructor; assumption.
  - intros [[s Hs] He]. destruct (job_of_row_cases r) as [[j [_ H]]|[_ [e H]]]; [exists j; exact H|].
    exfalso. unfold job_of_row in H. apply status_of_label_spec in Hs. rewrite Hs in H.
    assert (Hc : exists l, collect (map read_error (r_errors r)) = Some l).
    { clear -He. induction He as [|se l Hse _ [l' IH]]; [exists []; reflexivity|]. cbn. unfold read_error at 1.
      apply in_u16_spec in Hse. rewrite Hse, IH. eauto. }
    destruct Hc as [l Hc]. rewrite Hc in H. discriminate.
Qed.

Lemma step_readable ident now t o : NoDup (map r_id (t_rows t)) -> (forall r, In r (t_rows t) -> readable r) ->
  (adds_error o = true -> forall r, In r (t_rows t) -> concerns (r_id r) o -> 0 <= r_attempt r <= 65535) ->
  forall r, In r (t_rows (fst (pg_step ident now t o))) -> readable r.
Proof.
  intros Hn Hr Ha. destruct (pg_step ident now t o) as [t' res] eqn:E. cbn [fst].
  apply pg_step_cases in E; [|exact Hn]. destruct E as [[-> _]|[[e [key [_ [_ [Hm ->]]]]]|[H|[ps [keep [_ [_ ->]]]]]]].
  - exact Hr.
  - cbn. intros r Hi. apply in_app_or in Hi. destruct Hi as [Hi|[<-|[]]]; [auto|]. apply readable_iff.
    split; [exists Scheduled; constructor|constructor].
  - destruct H as [pre [r0 [r' [post [Es [-> [Hid [Hc _]]]]]]]]. cbn. intros r Hi.
    assert (H0 : readable r0) by (apply Hr; rewrite Es; apply in_or_app; right; left; reflexivity).
    assert (Hother : In r pre \/ In r post -> readable r) by (intro Hx; apply Hr; rewrite Es; apply in_or_app; cbn; tauto).
    apply in_app_or in Hi. destruct Hi as [Hi|[<-|Hi]]; [tauto| |tauto].
    apply readable_iff in H0. destruct H0 as [[s Hs] He]. apply readable_iff.
    assert (Hin : In r0 (t_rows t)) by (rewrite Es; apply in_or_app; right; left; reflexivity).
    destruct o; cbn in Hc; try contradiction; cbn in Ha.
    + destruct Hc as [H1 [H2 [H3 _]]]. split; [exists s; congruence|rewrite H3; exact He].
    + destruct Hc as [H1 [H2 [H3 _]]]. split; [exists Executing; rewrite H1; constructor|rewrite H3; exact He].
    + destruct Hc as [H1 [H2 [H3 [H4 H5]]]]. split; [exists Complete; rewrite H3; constructor|rewrite H5; exact He].
    + destruct Hc as [H1 [H2 [H3 [H4 [se [H5 [H6 _]]]]]]]. split; [exists Retryable; rewrite H3; constructor|]. rewrite H5.
      apply Forall_app. split; [exact He|]. constructor; [|constructor]. rewrite H6. apply (Ha eq_refl r0 Hin). congruence.
    + destruct Hc as [H1 [H2 [H3 [H4 [se [H5 [H6 _]]]]]]]. split; [exists Discarded; rewrite H3; constructor|]. rewrite H5.
      apply Forall_app. split; [exact He|]. constructor; [|constructor]. rewrite H6. apply (Ha eq_refl r0 Hin). congruence.
    + destruct Hc as [H1 [H2 [H3 [H4 [se [H5 [H6 _]]]]]]]. split; [exists Cancelled; rewrite H3; constructor|]. rewrite H5.
      apply Forall_app. split; [exact He|]. constructor; [|constructor]. rewrite H6. apply (Ha eq_refl r0 Hin). congruence.
    + destruct Hc as [H1 [H2 [[H3|H3] [H4 H5]]]]; (split; [|rewrite H5; exact He]);
        [exists Scheduled|exists Retryable]; rewrite H3; constructor.
    + destruct Hc as [H1 [H2 [[H3|H3] [H4 H5]]]]; (split; [|rewrite H5; exact He]);
        [exists Scheduled|exists Retryable]; rewrite H3; constructor.
    + destruct Hc as [H1 [H2 [H3 [H4 H5]]]]. split; [exists s; congruence|rewrite H5; exact He].
  - cbn. intros r Hi. apply filter_In in Hi. apply Hr. tauto.
Qed.

Lemma run_readable ident h : forall t, ids_ok t -> (forall r, In r (t_rows t) -> readable r) -> attempts_fit ident t h ->
  forall r, In r (t_rows (pg_run ident t h)) -> readable r.
Proof.
  induction h as [|[now o] h IH]; intros t Ht Hr Ha; cbn [pg_run]; [exact Hr|]. destruct Ha as [Ha1 Ha2].
  apply IH; [apply step_ids; exact Ht| |exact Ha2].
  apply step_readable; [apply Ht|exact Hr|exact Ha1].
Qed.

Lemma readable_holds t : (forall r, In r (t_rows t) -> readable r) -> exists js, holds_jobs t js.
Proof.
  unfold holds_jobs. induction (t_rows t) as [|r l IH]; intro H; [exists []; constructor|].
  destruct IH as [js Hjs]; [intros; apply H; right; assumption|]. destruct (H r (or_introl eq_refl)) as [j Hj].
  exists (j :: js). constructor; assumption.
Qed.

(** * What the trace says *)

Lemma trace_app ident h1 : forall t h2, pg_trace ident t (h1 ++ h2) = pg_trace ident t h1 ++ pg_trace ident (pg_run ident t h1) h2.
Proof.
  induction h1 as [|[now o] h1 IH]; intros t h2; cbn [app pg_trace pg_run]; [reflexivity|].
  destruct (pg_step ident now t o) as [t' r]. cbn [fst]. rewrite IH. reflexivity.
Qed.
Lemma fit_app ident h1 : forall t h2, attempts_fit ident t (h1 ++ h2) <-> attempts_fit ident t h1 /\ attempts_fit ident (pg_run ident t h1) h2.
Proof.
  induction h1 as [|[now o] h1 IH]; intros t h2; cbn [app attempts_fit pg_run]; [tauto|]. rewrite IH. tauto.
Qed.

Lemma notes_other id st ev :
  (forall now ex j, ev = (now, OpLoad ex, RJob (Ok (Some j))) -> j_id j <> id) ->
  (forall now o, ev = (now, o, RUnit (Ok tt)) -> ~ concerns id o) -> notes_step id st ev = st.
Proof.
  intros H1 H2. destruct st as [a l], ev as [[now o] r]. destruct o; try reflexivity; destruct r as [r|r|r|r]; try reflexivity.
  - destruct r as [[j|]| |]; try reflexivity. cbn. destruct (Z.eq_dec (j_id j) id) as [E|E]; [|reflexivity]. exfalso. eapply H1; [reflexivity|exact E].
  - destruct r as [[]| |]; try reflexivity; cbn; destruct (Z.eq_dec id0 id) as [E|E]; [|reflexivity]; exfalso; eapply H2; [reflexivity|exact E].
  - destruct r as [[]| |]; try reflexivity; cbn; destruct (Z.eq_dec id0 id) as [E|E]; [|reflexivity]; exfalso; eapply H2; [reflexivity|exact E].
  - destruct r as [[]| |]; try reflexivity; cbn; destruct (Z.eq_dec id0 id) as [E|E]; [|reflexivity]; exfalso; eapply H2; [reflexivity|exact E].
  - destruct r as [[]| |]; try reflexivity; cbn; destruct (Z.eq_dec id0 id) as [E|E]; [|reflexivity]; exfalso; eapply H2; [reflexivity|exact E].
Qed.

Definition told (r : row) : Z * list (Z * string) :=
  (r_attempt r, map (fun se => (se_attempt se, se_details se)) (r_errors r)).

Lemma notes_step_row ident now t o t' res : NoDup (map r_id (t_rows t)) -> pg_step ident now t o = (t', res) ->
  (forall r, In r (t_rows t') -> readable r) ->
  forall r', In r' (t_rows t') ->
    (exists r, In r (t_rows t) /\ r_id r = r_id r' /\ told r' = notes_step (r_id r') (told r) (now, o, res))
    \/ (r_id r' = t_next t /\ told r' = (0, []) /\ forall st, notes_step (r_id r') st (now, o, res) = st).
Proof.
  intros Hn Hs Hread r' Hr'. apply pg_step_cases in Hs; [|exact Hn].
  destruct Hs as [[-> Hq]|[[e [key [-> [-> [_ ->]]]]]|[[pre [r [r1 [post [E [-> [Hid [Hc _]]]]]]]]|[ps [keep [-> [-> ->]]]]]]].
  - left. exists r'. split; [exact Hr'|]. split; [reflexivity|]. symmetry. apply notes_other.
    + intros now' ex j Ev. injection Ev as _ -> ->. cbn in Hq. destruct Hq as [Hq|[e Hq]]; discriminate.
    + intros now' o' Ev Hcon. injection Ev as _ <- ->. destruct o; cbn in Hcon; try contradiction;
        cbn in Hq; destruct Hq as [er Hq]; discriminate.
  - cbn in Hr'. apply in_app_or in Hr'. destruct Hr' as [Hr'|[<-|[]]].
    + left. exists r'. split; [exact Hr'|]. split; reflexivity.
    + right. split; [reflexivity|]. split; [reflexivity|]. intros [a l]. reflexivity.
  - left. assert (Hr1 : In r1 (pre ++ r1 :: post)) by (apply in_or_app; right; left; reflexivity).
    cbn in Hr', Hread. rewrite E in Hn.
    assert (Hoth : In r' pre \/ In r' post -> r_id r' <> r_id r).
    { rewrite map_app in Hn. cbn in Hn. apply NoDup_remove_2 in Hn. intros Ho Eq. apply Hn. rewrite <- Eq, <- map_app.
      apply in_map, in_or_app. exact Ho. }
    apply in_app_or in Hr'.
    assert (Hcase : r' = r1 \/ (In r' pre \/ In r' post)) by (destruct Hr' as [?|[?|?]]; auto).
    clear Hr'. destruct Hcase as [->|Ho].
    + exists r. split; [rewrite E; apply in_or_app; right; left; reflexivity|]. split; [symmetry; exact Hid|]. rewrite Hid.
      unfold told. destruct o; cbn in Hc; try contradiction.
      * destruct Hc as [_ [-> [-> ->]]]. reflexivity.
      * destruct Hc as [_ [-> [-> [[j [Hj ->]]|[Hno _]]]]]; [|exfalso; apply Hno, Hread, Hr1].
        cbn. apply represents_id in Hj. destruct (Z.eq_dec (j_id j) (r_id r)); [reflexivity|congruence].
      * destruct Hc as [_ [-> [_ [-> ->]]]]. reflexivity.
      * destruct Hc as [<- [-> [_ [-> [se [-> [H1 H2]]]]]]]. cbn. destruct (Z.eq_dec (r_id r) (r_id r)); [|congruence].
        rewrite map_app. cbn. rewrite H1, H2. reflexivity.
      * destruct Hc as [<- [-> [_ [-> [se [-> [H1 H2]]]]]]]. cbn. destruct (Z.eq_dec (r_id r) (r_id r)); [|congruence].
        rewrite map_app. cbn. rewrite H1, H2. reflexivity.
      * destruct Hc as [<- [-> [_ [-> [se [-> [H1 H2]]]]]]]. cbn. destruct (Z.eq_dec (r_id r) (r_id r)); [|congruence].
        rewrite map_app. cbn. rewrite H1, H2. reflexivity.
      * destruct Hc as [<- [-> [_ [-> ->]]]]. cbn. destruct (Z.eq_dec (r_id r) (r_id r)); [reflexivity|congruence].
      * destruct Hc as [_ [-> [_ [-> ->]]]]. reflexivity.
      * destruct Hc as [_ [-> [_ [-> ->]]]]. reflexivity.
    + exists r'. specialize (Hoth Ho). split; [rewrite E; apply in_or_app; cbn; tauto|]. split; [reflexivity|]. symmetry. apply notes_other.
      * intros now' ex j Ev. injection Ev as _ -> ->. cbn in Hc. destruct Hc as [_ [_ [_ [[j' [Hj Ej]]|[_ [er Ej]]]]]]; [|discriminate].
        injection Ej as <-. apply represents_id in Hj. congruence.
      * intros now' o' Ev. injection Ev as _ <- ->. destruct o; cbn in *; try tauto; destruct Hc as [Hc _]; congruence.
  - left. cbn in Hr'. apply filter_In in Hr'. exists r'. split; [tauto|]. split; reflexivity.
Qed.

(** Nothing is said about ids not given out yet. *)
Lemma notes_fresh ident now t o t' res id st : ids_ok t -> pg_step ident now t o = (t', res) -> t_next t' <= id ->
  notes_step id st (now, o, res) = st.
Proof.
  intros [Hn [Hr _]] Hs Hid. apply pg_step_cases in Hs; [|exact Hn].
  destruct Hs as [[-> Hq]|[[e [key [-> [-> [_ ->]]]]]|[[pre [r [r1 [post [E [-> [Hi [Hc _]]]]]]]]|[ps [keep [-> [-> ->]]]]]]].
  - apply notes_other.
    + intros now' ex j Ev. injection Ev as _ -> ->. cbn in Hq. destruct Hq as [Hq|[e Hq]]; discriminate.
    + intros now' o' Ev Hcon. injection Ev as _ <- ->. destruct o; cbn in Hcon; try contradiction;
        cbn in Hq; destruct Hq as [er Hq]; discriminate.
  - destruct st. reflexivity.
  - assert (Hlt : r_id r < id).
    { cbn in Hid. assert (H : In r (t_rows t)) by (rewrite E; apply in_or_app; right; left; reflexivity).
      specialize (Hr r H). lia. }
    apply notes_other.
    + intros now' ex j Ev. injection Ev as _ -> ->. cbn in Hc. destruct Hc as [_ [_ [_ [[j' [Hj Ej]]|[_ [er Ej]]]]]]; [|discriminate].
      injection Ej as <-. apply represents_id in Hj. lia.
    + intros now' o' Ev Hcon. injection Ev as _ <- ->. destruct o; cbn in *; try tauto; destruct Hc as [Hc _]; lia.
  - destruct st. reflexivity.
Qed.

Lemma run_notes ident h : attempts_fit ident tbl_init h ->
  (forall r, In r (t_rows (pg_run ident tbl_init h)) -> notes (r_id r) (pg_trace ident tbl_init h) = told r)
  /\ (forall id, t_next (pg_run ident tbl_init h) <= id -> notes id (pg_trace ident tbl_init h) = (0, [])).
Proof.
  induction h as [|[now o] h IH] using rev_ind; intro Hf; [split; [intros r []|reflexivity]|].
  pose proof Hf as Hfull. apply fit_app in Hf. destruct Hf as [Hf _]. destruct (IH Hf) as [IH1 IH2]. clear IH.
  destruct (run_ids ident h tbl_init ids_ok_init) as [Hok _].
  assert (Hread : forall r, In r (t_rows (pg_run ident tbl_init (h ++ [(now, o)]))) -> readable r).
  { apply run_readable; [exact ids_ok_init|intros r []|exact Hfull]. }
  rewrite run_app in *. rewrite trace_app. set (t := pg_run ident tbl_init h) in *. cbn [pg_run pg_trace] in *.
  destruct (pg_step ident now t o) as [t' res] eqn:Es. cbn [fst] in *. unfold notes in *. split.
  - intros r' Hr'. rewrite fold_left_app. cbn [fold_left].
    destruct (notes_step_row ident now t o t' res (proj1 Hok) Es Hread r' Hr') as [[r [Hr [Hid Hn]]]|[Hid [Ht Hn]]].
    + rewrite <- Hid in *. rewrite (IH1 r Hr). symmetry. exact Hn.
    + rewrite Hn, Ht. apply IH2. lia.
  - intros id Hid. rewrite fold_left_app. cbn [fold_left]. rewrite (notes_fresh ident now t o t' res id _ Hok Es Hid). apply IH2.
    pose proof (step_ids ident now t o Hok) as [_ Hle]. rewrite Es in Hle. cbn in Hle. lia.
Qed.

(** * What a job is for *)

Lemma step_purpose ident now t o t' res : NoDup (map r_id (t_rows t)) -> pg_step ident now t o = (t', res) ->
  ~ replacing_enqueue o ->
  forall r', In r' (t_rows t') -> r_id r' < t_next t -> (forall x, o = OpUpdate x -> j_id x <> r_id r') ->
  exists r, In r (t_rows t) /\ r_id r = r_id r' /\ same_purpose r r' /\ r_executor r' = r_executor r /\ r_inserted_at r' = r_inserted_at r.
Proof.
  intros Hn Hs Hrep r' Hr' Hlt Hup. apply pg_step_cases in Hs; [|exact Hn].
  assert (Hsame : In r' (t_rows t) -> exists r, In r (t_rows t) /\ r_id r = r_id r' /\ same_purpose r r' /\ r_executor r' = r_executor r /\ r_inserted_at r' = r_inserted_at r).
  { intro H. exists r'. repeat split. exact H. }
  destruct Hs as [[-> Hq]|[[e [key [-> [-> [_ ->]]]]]|[[pre [r [r1 [post [E [-> [Hid [Hc Hp]]]]]]]]|[ps [keep [-> [-> ->]]]]]]].
  - apply Hsame, Hr'.
  - cbn in Hr'. apply in_app_or in Hr'. destruct Hr' as [Hr'|[<-|[]]]; [apply Hsame, Hr'|]. cbn in Hlt. lia.
  - cbn in Hr'. apply in_app_or in Hr'. destruct Hr' as [Hr'|[<-|Hr']];
      [apply Hsame; rewrite E; apply in_or_app; left; exact Hr'| |apply Hsame; rewrite E; apply in_or_app; right; right; exact Hr'].
    exists r. split; [rewrite E; apply in_or_app; right; left; reflexivity|]. split; [symmetry; exact Hid|].
    destruct Hp as [P1 [P2 [P3 P4]]]. split; [|split; [exact P1|exact P2]].
    destruct o; try exact P4.
    + destruct P4 as [_ P4]. contradiction.
    + exfalso. cbn in Hc. destruct Hc as [Hc _]. apply (Hup j eq_refl). congruence.
  - cbn in Hr'. apply filter_In in Hr'. apply Hsame. tauto.
Qed.

Lemma run_purpose ident h : forall t r r', ids_ok t -> In r (t_rows t) ->
  (forall now o, In (now, o) h -> ~ replacing_enqueue o /\ (forall x, o = OpUpdate x -> j_id x <> r_id r)) ->
  In r' (t_rows (pg_run ident t h)) -> r_id r' = r_id r ->
  same_purpose r r' /\ r_executor r' = r_executor r /\ r_inserted_at r' = r_inserted_at r.
Proof.
  induction h as [|[now o] h IH] using rev_ind; intros t r r' Ht Hr Ho Hr' Hid.
  - cbn in Hr'. assert (r' = r) as -> by (eapply (nodup_map_eq r_id); [apply Ht|assumption|assumption|assumption]). repeat split.
  - rewrite run_app in Hr'. destruct (run_ids ident h t Ht) as [Hok Hle]. set (t1 := pg_run ident t h) in *. cbn [pg_run] in Hr'.
    destruct (pg_step ident now t1 o) as [t' res] eqn:Es. cbn [fst] in Hr'.
    assert (Hno : ~ replacing_enqueue o /\ (forall x, o = OpUpdate x -> j_id x <> r_id r)) by (apply (Ho now o), in_or_app; right; left; reflexivity).
    assert (Hlt : r_id r' < t_next t1) by (destruct Ht as [_ [Ht _]]; specialize (Ht r Hr); lia).
    destruct (step_purpose ident now t1 o t' res (proj1 Hok) Es (proj1 Hno) r' Hr' Hlt) as [r1 [H1 [H2 [[A1 [A2 [A3 A4]]] [A5 A6]]]]].
    { intros x Ex. rewrite Hid. apply Hno, Ex. }
    destruct (IH t r r1 Ht Hr) as [[B1 [B2 [B3 B4]]] [B5 B6]].
    { intros n o' Hi. apply (Ho n o'), in_or_app. left. exact Hi. }
    { exact H1. } { lia. }
    unfold same_purpose. rewrite A1, A2, A3, A4, A5, A6, B1, B2, B3, B4, B5, B6. repeat split.
Qed.
