(** The SQL text of queries, rexecutor-sqlx/src/query.rs, as a list of tokens, and what Postgres
    makes of it.  Each piece the code pushes is one or a few tokens; a bound parameter is its value. *)
From Verif Require Import Base Chrono Types Query PgRow.

(** The columns of rexecutor_jobs that queries mention. *)
Inductive column := CId | CStatus | CExecutor | CData | CMetadata | CTags | CScheduledAt.

(** Bound parameters. *)
Inductive bound :=
| BInt (z : Z)
| BInts (l : list Z)
| BText (s : string)
| BTexts (l : list string)
| BStatus (label : string)
| BJson (v : json)
| BTime (t : time).

(** Tokens of the WHERE clause: keywords, columns, [=], [<], [>], [@>], [&&], [All(], [)],
    [::varchar[]] and parameters. *)
Inductive token :=
| TNot | TAnd | TOr
| TCol (c : column)
| TEq | TLess | TGreater | TContains | TOverlaps
| TAll | TClose | TVarchars
| TBind (b : bound).

(** Rust [split_last] plus the loop of src/query.rs 96-102, 104-110: the pieces with the keyword
    between them. *)
Fixpoint joined (keyword : token) (l : list (list token)) : list token :=
  match l with
  | [] => []
  | [x] => x
  | x :: l' => x ++ keyword :: joined keyword l'
  end.

(** src/query.rs 89-165: [handle_query]. *)
Fixpoint handle_query (q : query) : list token :=
  match q with
  | QNot inner => TNot :: handle_query inner
  | QAnd qs => joined TAnd (map handle_query qs)
  | QOr qs => joined TOr (map handle_query qs)
  | QDataEquals d => [TCol CData; TEq; TBind (BJson d)]
  | QMetadataEquals m => [TCol CMetadata; TEq; TBind (BJson m)]
  | QExecutorEqual e => [TCol CExecutor; TEq; TBind (BText e)]
  | QIdEquals id => [TCol CId; TEq; TBind (BInt id)]
  | QIdIn ids => [TCol CId; TEq; TAll; TBind (BInts ids); TClose]
  | QStatusEqual s => [TCol CStatus; TEq; TBind (BStatus (label s))]
  | QTagsAllOf ts => [TCol CTags; TContains; TBind (BTexts ts); TVarchars]
  | QTagsOneOf ts => [TCol CTags; TOverlaps; TBind (BTexts ts); TVarchars]
  | QScheduledAtBefore t => [TCol CScheduledAt; TLess; TBind (BTime t)]
  | QScheduledAtAfter t => [TCol CScheduledAt; TGreater; TBind (BTime t)]
  | QScheduledAtEqual t => [TCol CScheduledAt; TEq; TBind (BTime t)]
  end.

(** * Postgres *)

(** Conditions as Postgres parses them. *)
Inductive cond :=
| CondNot (c : cond)
| CondAnd (a b : cond)
| CondOr (a b : cond)
| CondCompare (op : token) (c : column) (b : bound)
| CondEqAll (c : column) (b : bound).

(** A comparison at the head of the tokens.  The code generates no parentheses, so neither are they
    parsed. *)
Definition parse_compare (ts : list token) : option (cond * list token) :=
  match ts with
  | TCol c :: TEq :: TAll :: TBind b :: TClose :: rest => Some (CondEqAll c b, rest)
  | TCol c :: op :: TBind b :: TVarchars :: rest =>
      match op with TContains | TOverlaps => Some (CondCompare op c b, rest) | _ => None end
  | TCol c :: op :: TBind b :: rest =>
      match op with TEq | TLess | TGreater => Some (CondCompare op c b, rest) | _ => None end
  | _ => None
  end.
(** [NOT] binds tighter than [AND], [AND] tighter than [OR] (Postgres documentation, 4.1.6). *)
Fixpoint parse_not (ts : list token) : option (cond * list token) :=
  match ts with
  | TNot :: rest =>
      match parse_not rest with Some (c, rest') => Some (CondNot c, rest') | None => None end
  | _ => parse_compare ts
  end.
(** [fuel] bounds the number of conjuncts (disjuncts); the number of tokens suffices. *)
Fixpoint parse_and (fuel : nat) (ts : list token) : option (cond * list token) :=
  match fuel with
  | O => None
  | S fuel' =>
      match parse_not ts with
      | Some (c, TAnd :: rest) =>
          match parse_and fuel' rest with Some (c', rest') => Some (CondAnd c c', rest') | None => None end
      | other => other
      end
  end.
Fixpoint parse_or (fuel : nat) (ts : list token) : option (cond * list token) :=
  match fuel with
  | O => None
  | S fuel' =>
      match parse_and (S (length ts)) ts with
      | Some (c, TOr :: rest) =>
          match parse_or fuel' rest with Some (c', rest') => Some (CondOr c c', rest') | None => None end
      | other => other
      end
  end.
(** The clause must be a complete condition: next comes [ORDER BY], src/query.rs 84. *)
Definition parse_where (ts : list token) : option cond :=
  match parse_or (S (length ts)) ts with
  | Some (c, []) => Some c
  | _ => None
  end.

(** What the server accepts as a parameter: no zero bytes, times in range. *)
Definition bound_ok (b : bound) : bool :=
  match b with
  | BText s => storable s
  | BTexts l => forallb storable l
  | BJson v => json_storable v
  | BTime t => match bind_time t with Some _ => true | None => false end
  | BInt _ | BInts _ | BStatus _ => true
  end.
(** All the parameters of a clause. *)
Definition bounds_ok (ts : list token) : bool :=
  forallb (fun t => match t with TBind b => bound_ok b | _ => true end) ts.

(** A comparison on a row.  Combinations of operator, column and parameter that the code never
    generates are false here (Postgres rejects most of them). *)
Definition compare_row (op : token) (c : column) (b : bound) (r : row) : bool :=
  match c, op, b with
  | CId, TEq, BInt z => r_id r =? z
  | CStatus, TEq, BStatus l => String.eqb (r_status r) l
  | CExecutor, TEq, BText s => String.eqb (r_executor r) s
  | CData, TEq, BJson v => json_eqb (r_data r) v
  | CMetadata, TEq, BJson v => json_eqb (r_metadata r) v
  | CTags, TContains, BTexts l => forallb (has_tag (r_tags r)) l
  | CTags, TOverlaps, BTexts l => existsb (has_tag (r_tags r)) l
  | CScheduledAt, TEq, BTime t => r_scheduled_at r =? pg_time t
  | CScheduledAt, TLess, BTime t => r_scheduled_at r <? pg_time t
  | CScheduledAt, TGreater, BTime t => pg_time t <? r_scheduled_at r
  | _, _, _ => false
  end.

(** A condition on a row; no column in it is null, so two values are enough. *)
Fixpoint eval (c : cond) (r : row) : bool :=
  match c with
  | CondNot c' => negb (eval c' r)
  | CondAnd a b => eval a r && eval b r
  | CondOr a b => eval a r || eval b r
  | CondCompare op col b => compare_row op col b r
  | CondEqAll CId (BInts l) => forallb (Z.eqb (r_id r)) l
  | CondEqAll _ _ => false
  end.

(** The rows a query selects, in the order they are scanned; [None] is an error of the server (text
    that is no condition, or a parameter it does not accept). *)
Definition select_rows (q : query) (rows : list row) : option (list row) :=
  match parse_where (handle_query q) with
  | Some c => if bounds_ok (handle_query q) then Some (filter (eval c) rows) else None
  | None => None
  end.
