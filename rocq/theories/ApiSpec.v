(** Specifications used in the statements about builders, typed jobs, the global backend and the
    enqueue assertions. *)
From Verif Require Import Base Chrono Types Query Memory MemSpec Codec Builder GlobalBackend Testing.

(** [v] is the value given by the last call in [cs] that sets a field ([f] says which calls set it
    and to what), or [dflt] when no call does. *)
Definition last_set {C A} (f : C -> option A) (cs : list C) (dflt v : A) : Prop :=
  (exists before c after, cs = before ++ c :: after /\ f c = Some v
     /\ forall x, In x after -> f x = None)
  \/ ((forall x, In x cs -> f x = None) /\ v = dflt).

Section Fields.
  Context {D M : Type}.

  (** The calls that set each field. *)
  Definition sets_data (c : bcall D M) : option (option D) :=
    match c with CData d => Some (Some d) | _ => None end.
  Definition sets_metadata (c : bcall D M) : option (option M) :=
    match c with CMetadata m => Some (Some m) | _ => None end.
  Definition sets_max_attempts (c : bcall D M) : option Z :=
    match c with CMaxAttempts n => Some n | _ => None end.
  Definition sets_scheduled_at (c : bcall D M) : option time :=
    match c with
    | CScheduleAt t => Some t
    | CScheduleIn now d => Some (now + d)
    | _ => None
    end.
  Definition sets_priority (c : bcall D M) : option Z :=
    match c with CPriority n => Some n | _ => None end.
  Definition sets_criteria (c : bcall D M) : option (option criteria) :=
    match c with CUnique u => Some (Some u) | _ => None end.
  Definition sets_tags (c : bcall D M) : option (list string) :=
    match c with CWithTags l => Some l | _ => None end.
  (** The tags added one by one. *)
  Definition adds (c : bcall D M) : list string := match c with CAddTag t => [t] | _ => [] end.

  (** The tags of the request: those of the last [with_tags] followed by those added after it. *)
  Definition tags_are (cs : list (bcall D M)) (tags : list string) : Prop :=
    (exists before l after, cs = before ++ CWithTags l :: after /\ tags = l ++ flat_map adds after
       /\ forall x, In x after -> sets_tags x = None)
    \/ ((forall x, In x cs -> sets_tags x = None) /\ tags = flat_map adds cs).

  (** The JSON a value that may be missing is stored as. *)
  Definition stored_as {A} (enc : A -> option json) (a : option A) (v : json) : Prop :=
    match a with None => v = JNull | Some x => enc x = Some v end.

  (** [e] is the request described by the calls [cs] made on a builder created at [now]. *)
  Record describes (c : codec D M) (ex : exec_consts) (now : time) (cs : list (bcall D M))
    (e : enqueuable) : Prop := {
    ds_executor : eq_executor e = ex_name ex;
    ds_data : exists d, last_set sets_data cs None d /\ stored_as (enc_data c) d (eq_data e);
    ds_metadata : exists m, last_set sets_metadata cs None m
                            /\ stored_as (enc_meta c) m (eq_metadata e);
    ds_max_attempts : last_set sets_max_attempts cs (ex_max_attempts ex) (eq_max_attempts e);
    ds_scheduled_at : last_set sets_scheduled_at cs now (eq_scheduled_at e);
    ds_tags : tags_are cs (eq_tags e);
    ds_priority : last_set sets_priority cs 0 (eq_priority e);
    ds_criteria : last_set sets_criteria cs (ex_criteria ex) (eq_criteria e)
  }.

  (** Serialization round-trips. *)
  Definition data_round_trips (c : codec D M) : Prop :=
    forall d v, enc_data c d = Some v -> dec_data c v = Some d.
  Definition metadata_round_trips (c : codec D M) : Prop :=
    forall m v, enc_meta c m = Some v -> dec_meta c v = Some m.
  (** No metadata value is serialized as null. *)
  Definition metadata_not_null (c : codec D M) : Prop :=
    forall m, enc_meta c m <> Some JNull.

  (** A stored job's payload was produced by the executor's serialization. *)
  Definition well_typed (c : codec D M) (j : job) : Prop :=
    (exists d, enc_data c d = Some (j_data j))
    /\ (exists m, stored_as (enc_meta c) m (j_metadata j)).

  (** Counters in the range of [u16]. *)
  Definition counters_u16 (j : job) : Prop :=
    0 <= j_attempt j <= 65535 /\ 0 <= j_max_attempts j <= 65535 /\ 0 <= j_priority j <= 65535.

  (** The data does not decode, or there is metadata and it does not decode. *)
  Definition unreadable (c : codec D M) (j : job) : Prop :=
    dec_data c (j_data j) = None \/ (j_metadata j <> JNull /\ dec_meta c (j_metadata j) = None).

  (** The typed and the stored job say the same, field by field. *)
  Record reads_as (c : codec D M) (j : job) (t : tjob D M) : Prop := {
    ra_id : tj_id t = j_id j;
    ra_status : tj_status t = j_status j;
    ra_executor : tj_executor t = j_executor j;
    ra_data : enc_data c (tj_data t) = Some (j_data j);
    ra_metadata : stored_as (enc_meta c) (tj_metadata t) (j_metadata j);
    ra_attempt : tj_attempt t = j_attempt j;
    ra_max_attempts : tj_max_attempts t = j_max_attempts j;
    ra_priority : tj_priority t = j_priority j;
    ra_tags : tj_tags t = j_tags j;
    ra_errors : tj_errors t = j_errors j;
    ra_inserted_at : tj_inserted_at t = j_inserted_at j;
    ra_scheduled_at : tj_scheduled_at t = j_scheduled_at j;
    ra_attempted_at : tj_attempted_at t = j_attempted_at j;
    ra_completed_at : tj_completed_at t = j_completed_at j;
    ra_cancelled_at : tj_cancelled_at t = j_cancelled_at j;
    ra_discarded_at : tj_discarded_at t = j_discarded_at j
  }.
End Fields.

(** * Criteria expressions *)

(** The fields a [Replace] expression names. *)
Inductive rfield := FScheduledAt | FData | FMetadata | FPriority | FMaxAttempts.
Inductive names : rfield -> replace_expr -> Prop :=
| nm_scheduled_at : names FScheduledAt XScheduledAt
| nm_data : names FData XData
| nm_metadata : names FMetadata XMetadata
| nm_priority : names FPriority XPriority
| nm_max_attempts : names FMaxAttempts XMaxAttempts
| nm_and_scheduled_at x : names FScheduledAt (XAndScheduledAt x)
| nm_and_data x : names FData (XAndData x)
| nm_and_metadata x : names FMetadata (XAndMetadata x)
| nm_and_priority x : names FPriority (XAndPriority x)
| nm_and_max_attempts x : names FMaxAttempts (XAndMaxAttempts x)
| nm_in_scheduled_at f x : names f x -> names f (XAndScheduledAt x)
| nm_in_data f x : names f x -> names f (XAndData x)
| nm_in_metadata f x : names f x -> names f (XAndMetadata x)
| nm_in_priority f x : names f x -> names f (XAndPriority x)
| nm_in_max_attempts f x : names f x -> names f (XAndMaxAttempts x)
| nm_in_for_statuses f x l : names f x -> names f (XForStatuses x l).

(** The links of a method chain, outermost (last called) first. *)
Fixpoint replace_chain (x : replace_expr) : list replace_expr :=
  x :: match x with
       | XAndScheduledAt y | XAndData y | XAndMetadata y | XAndPriority y | XAndMaxAttempts y
       | XForStatuses y _ => replace_chain y
       | _ => []
       end.
Fixpoint criteria_chain (x : criteria_expr) : list criteria_expr :=
  x :: match x with
       | XAndExecutor y | XAndWithin y _ | XAndStatuses y _ | XAndKey y _ | XOnConflict y _
       | XOnConflictDoNothing y => criteria_chain y
       | _ => []
       end.

(** What one link says about each part of the criteria. *)
Definition says_statuses_r (x : replace_expr) : option (list status) :=
  match x with XForStatuses _ l => Some l | _ => None end.
Definition says_key (x : criteria_expr) : option (option Z) :=
  match x with XByKey h | XAndKey _ h => Some (Some h) | _ => None end.
Definition says_executor (x : criteria_expr) : option bool :=
  match x with XByExecutor | XAndExecutor _ => Some true | _ => None end.
Definition says_within (x : criteria_expr) : option (option delta) :=
  match x with XWithin d | XAndWithin _ d => Some (Some d) | _ => None end.
Definition says_statuses (x : criteria_expr) : option (list status) :=
  match x with XByStatuses l | XAndStatuses _ l => Some l | _ => None end.
Definition says_resolution (x : criteria_expr) : option resolution :=
  match x with
  | XOnConflict _ r => Some (Replace r)
  | XOnConflictDoNothing _ => Some DoNothing
  | _ => None
  end.

(** A 64-bit key and its signed reading. *)
Definition signed_reading (u : option Z) (i : option Z) : Prop :=
  match u, i with
  | None, None => True
  | Some h, Some k => - 2 ^ 63 <= k < 2 ^ 63 /\ exists q, h = k + q * 2 ^ 64
  | _, _ => False
  end.

(** * Global backend *)

(** The backend named by the first [GSet] of a sequence of calls. *)
Fixpoint first_set {D M} (cs : list (time * gcall D M)) : option nat :=
  match cs with
  | [] => None
  | (_, GSet i) :: _ => Some i
  | _ :: cs' => first_set cs'
  end.

(** The call does not say which backend to use. *)
Definition unaddressed {D M} (call : gcall D M) : Prop :=
  match call with
  | GSet _ => False
  | GEnqueue on _ | GCancel on _ _ | GRerun on _ | GUpdate on _ | GQuery on _ => on = None
  end.

(** The same call, addressed to backend [i]. *)
Definition addressed {D M} (i : nat) (call : gcall D M) : gcall D M :=
  match call with
  | GSet k => GSet k
  | GEnqueue _ b => GEnqueue (Some i) b
  | GCancel _ id r => GCancel (Some i) id r
  | GRerun _ id => GRerun (Some i) id
  | GUpdate _ t => GUpdate (Some i) t
  | GQuery _ w => GQuery (Some i) w
  end.

(** The result is the missing-global-backend error. *)
Definition no_global {D M} (r : gres D M) : Prop :=
  r = GRUnit (RErr GlobalBackendError) \/ r = GRId (RErr GlobalBackendError)
  \/ r = GRJobs (RErr GlobalBackendError).

(** The caller gets what the backend answered. *)
Definition passed_on {A} (r : result A) (q : rres A) : Prop :=
  (forall a, r = Ok a -> q = ROk a)
  /\ (forall e, r = Err e -> q = RErr (BackendError e))
  /\ (r = Panic -> q = RPanic).

(** * Assertions *)

(** What a condition of [assert_enqueued!] says. *)
Definition cond_holds (j : job) (c : cond) : Prop :=
  match c with
  | WithDataC d => j_data j = d
  | WithMetadataC m => j_metadata j = m
  | TaggedWith ts => forall t, In t ts -> In t (j_tags j)
  | ScheduledAtC t => j_scheduled_at j = t
  | ScheduledAfterC t => j_scheduled_at j > t
  | ScheduledBeforeC t => j_scheduled_at j < t
  | ForExecutorC e => j_executor j = e
  end.

(** The number of jobs a form says it expects. *)
Definition expected (f : form) : Z :=
  match f with JobsTo n | Jobs n => n | OneJobTo | OneJob | To | Plain => 1 end.

(** Exactly [n] of the jobs satisfy all conditions. *)
Definition exactly (n : Z) (conds : list cond) (l : list job) : Prop :=
  exists kept, exactly_removed (fun j => ~ (forall c, In c conds -> cond_holds j c)) l kept
    /\ Z.of_nat (length kept) = n.
