(** User queries ([Where]), backend queries, the translation between them, and in-memory matching. *)
From Verif Require Import Base Chrono Types.

(** rexecutor/src/backend.rs 279-308: [backend::Query]. *)
Inductive query :=
| QNot (q : query)
| QAnd (qs : list query)
| QOr (qs : list query)
| QExecutorEqual (e : string)
| QDataEquals (d : json)
| QMetadataEquals (m : json)
| QIdEquals (id : Z)
| QIdIn (ids : list Z)
| QStatusEqual (s : status)
| QTagsAllOf (ts : list string)
| QTagsOneOf (ts : list string)
| QScheduledAtBefore (t : time)
| QScheduledAtAfter (t : time)
| QScheduledAtEqual (t : time).

(** Rust [tags.iter().any(|t| t == tag)], rexecutor/src/backend/queryable.rs 26. *)
Definition has_tag (tags : list string) (tag : string) : bool := existsb (String.eqb tag) tags.

(** rexecutor/src/backend/queryable.rs 14-33: [Queryable::matches] for [Query]. *)
Fixpoint query_matches (q : query) (j : job) {struct q} : bool :=
  match q with
  | QNot inner => negb (query_matches inner j)
  | QAnd inner => forallb (fun q' => query_matches q' j) inner
  | QOr inner => existsb (fun q' => query_matches q' j) inner
  | QExecutorEqual e => String.eqb (j_executor j) e
  | QDataEquals d => json_eqb (j_data j) d
  | QMetadataEquals m => json_eqb (j_metadata j) m
  | QIdEquals id => j_id j =? id
  | QIdIn ids => existsb (Z.eqb (j_id j)) ids
  | QStatusEqual s => status_eqb (j_status j) s
  | QTagsAllOf ts => forallb (has_tag (j_tags j)) ts
  | QTagsOneOf ts => existsb (has_tag (j_tags j)) ts
  | QScheduledAtBefore t => j_scheduled_at j <? t
  | QScheduledAtAfter t => t <? j_scheduled_at j
  | QScheduledAtEqual t => j_scheduled_at j =? t
  end.

(** rexecutor/src/backend.rs 312-319: [Query::for_executor]. *)
Definition for_executor (q : query) (executor : string) : query :=
  match q with
  | QAnd qs => QAnd (qs ++ [QExecutorEqual executor])
  | _ => QAnd [QExecutorEqual executor; q]
  end.

(** rexecutor/src/job/query.rs 124-179: [job::query::Query] (113 wraps it) as [Where].  [D] and
    [M] are the executor's data and metadata types. *)
Inductive where_ (D M : Type) :=
| WNot (q : where_ D M)
| WAnd (qs : list (where_ D M))
| WOr (qs : list (where_ D M))
| WDataEquals (d : D)
| WMetadataEquals (m : M)
| WIdEquals (id : Z)
| WIdIn (ids : list Z)
| WStatusEqual (s : status)
| WTagsAllOf (ts : list string)
| WTagsOneOf (ts : list string)
| WScheduledAtBefore (t : time)
| WScheduledAtAfter (t : time)
| WScheduledAtEqual (t : time).
Arguments WNot {D M}. Arguments WAnd {D M}. Arguments WOr {D M}.
Arguments WDataEquals {D M}. Arguments WMetadataEquals {D M}. Arguments WIdEquals {D M}.
Arguments WIdIn {D M}. Arguments WStatusEqual {D M}. Arguments WTagsAllOf {D M}.
Arguments WTagsOneOf {D M}. Arguments WScheduledAtBefore {D M}.
Arguments WScheduledAtAfter {D M}. Arguments WScheduledAtEqual {D M}.

(** rexecutor/src/job/query.rs 193-200: [Where::and]. *)
Definition where_and {D M} (self other : where_ D M) : where_ D M :=
  match self with
  | WAnd qs => WAnd (qs ++ [other])
  | _ => WAnd [self; other]
  end.

(** rexecutor/src/job/query.rs 212-219: [Where::or]. *)
Definition where_or {D M} (self other : where_ D M) : where_ D M :=
  match self with
  | WOr qs => WOr (qs ++ [other])
  | _ => WOr [self; other]
  end.

(** rexecutor/src/job/query.rs 282-287: [Not for Where]. *)
Definition where_not {D M} (self : where_ D M) : where_ D M := WNot self.

(** rexecutor/src/job/query.rs 272-279: the two constructors that read the clock; [None] is the
    panic of [Utc::now() - duration]. *)
Definition where_older_than {D M} (now : time) (d : delta) : option (where_ D M) :=
  option_map WScheduledAtBefore (dt_sub now d).
Definition where_within_the_last {D M} (now : time) (d : delta) : option (where_ D M) :=
  option_map WScheduledAtAfter (dt_sub now d).

(** Rust [collect::<Result<Vec<_>, _>>()]: all or nothing. *)
Fixpoint collect {A} (l : list (option A)) : option (list A) :=
  match l with
  | [] => Some []
  | None :: _ => None
  | Some a :: l' => match collect l' with Some r => Some (a :: r) | None => None end
  end.

Section Translate.
  Context {D M : Type}.
  (** [serde_json::to_value] on the data and metadata types; [None] is a serialization error. *)
  Variable enc_data : D -> option json.
  Variable enc_metadata : M -> option json.

  (** rexecutor/src/backend.rs 322-364: [TryFrom<job::query::Query> for Query]; [None] is the
      serialization error. *)
  Fixpoint query_of_where (w : where_ D M) : option query :=
    match w with
    | WNot q => option_map QNot (query_of_where q)
    | WAnd qs => option_map QAnd (collect (map query_of_where qs))
    | WOr qs => option_map QOr (collect (map query_of_where qs))
    | WDataEquals d => option_map QDataEquals (enc_data d)
    | WMetadataEquals m => option_map QMetadataEquals (enc_metadata m)
    | WIdEquals id => Some (QIdEquals id)
    | WIdIn ids => Some (QIdIn ids)
    | WStatusEqual s => Some (QStatusEqual s)
    | WTagsAllOf ts => Some (QTagsAllOf ts)
    | WTagsOneOf ts => Some (QTagsOneOf ts)
    | WScheduledAtBefore t => Some (QScheduledAtBefore t)
    | WScheduledAtAfter t => Some (QScheduledAtAfter t)
    | WScheduledAtEqual t => Some (QScheduledAtEqual t)
    end.
End Translate.

(** rexecutor/src/backend/queryable.rs 41-48: [Queryable::matches] for [Spec]. *)
Definition spec_matches (s : spec) (j : job) : bool :=
  match s with
  | Except l => forallb (fun e => negb (String.eqb e (j_executor j))) l
  | Only l => existsb (fun e => String.eqb e (j_executor j)) l
  end.

(** rexecutor/src/backend/queryable.rs 35-39: [Queryable::matches] for [PruneSpec]. *)
Definition prune_matches (ps : prune_spec) (j : job) : bool :=
  status_eqb (j_status j) (ps_status ps) && spec_matches (ps_executors ps) j.
