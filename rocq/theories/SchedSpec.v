(** Vocabulary for the properties of the schedule loops and prune rules. *)
From Verif Require Import Base Chrono Types Query Memory MemSpec Codec Builder Ticker Pruner.

(** [upcoming] answers, for the schedule with these instants, the first instant after a clock
    reading. *)
Definition answers (instants : time -> Prop) (upcoming : time -> option time) : Prop :=
  forall c, match upcoming c with
            | Some n => instants n /\ c < n /\ forall i, instants i -> c < i -> n <= i
            | None => forall i, instants i -> i <= c
            end.

(** The actions of a loop in the order they were taken, as (clock, instant). *)
Definition actions (s : ticker) : list (time * time) := rev (tk_fired s).

(** The loop looks at its schedule at clock reading [c]. *)
Definition looks (c : time) (es : list tick_event) : Prop := exists c1, In (Compute c c1) es.


(** The jobs an executor has for an instant. *)
Definition jobs_for (name : string) (n : time) (l : list job) : list job :=
  filter (fun j => String.eqb (j_executor j) name && (j_scheduled_at j =? n)) l.

(** Which executors a pruner expression names, and how. *)
Definition expr_covers (x : pruner_expr) (name : string) : Prop :=
  match x with
  | PAll _ _ => True
  | POnly _ _ first more => name = first \/ In name more
  | PExcept _ _ first more => name <> first /\ ~ In name more
  end.
Definition expr_status (x : pruner_expr) : status :=
  match x with PAll _ s => s | POnly _ s _ _ => s | PExcept _ s _ _ => s end.
Definition expr_limit (x : pruner_expr) : prune_by :=
  match x with PAll l _ | POnly l _ _ _ | PExcept l _ _ _ =>
    match l with LimAge d => MaxAge d | LimLength n => MaxLength n end
  end.

(** The pruners a chain of configuration calls names, in order. *)
Fixpoint named_pruners (calls : list config_call) : list pruner :=
  match calls with
  | [] => []
  | CfgConcurrency _ :: cs => named_pruners cs
  | CfgPruner p :: cs => p :: named_pruners cs
  | CfgPruners l :: cs => l ++ named_pruners cs
  end.

(** A rule whose age limit does not leave chrono's range at [now]. *)
Definition age_in_range (now : time) (ps : prune_spec) : Prop :=
  match ps_by ps with
  | MaxAge d => dt_min <= now - d <= dt_max /\ dt_min <= now + d <= dt_max
  | MaxLength _ => True
  end.
