(** Prune rules, their configuration and what happens when the pruner fires. *)
From Verif Require Import Base Chrono Types Query Memory.

(** rexecutor/src/pruner.rs 357-376: the scope types [All], [Except], [Only] as one type.  The Rust
    type parameter makes [only]/[except] available on [All] only and [and] on the others only; here
    [pruner_expr] below only builds such chains. *)
Inductive scope := ScopeAll | ScopeExcept (l : list string) | ScopeOnly (l : list string).

(** pruner.rs 265-273: [Pruner<T>]. *)
Record pruner := mk_pruner { pn_status : status; pn_by : prune_by; pn_scope : scope }.

(** pruner.rs 277-283. *)
Definition max_age (d : delta) (s : status) : pruner := mk_pruner s (MaxAge d) ScopeAll.
(** pruner.rs 286-292. *)
Definition max_length (n : Z) (s : status) : pruner := mk_pruner s (MaxLength n) ScopeAll.
(** pruner.rs 295-301. *)
Definition only (name : string) (p : pruner) : pruner :=
  mk_pruner (pn_status p) (pn_by p) (ScopeOnly [name]).
(** pruner.rs 304-310. *)
Definition except (name : string) (p : pruner) : pruner :=
  mk_pruner (pn_status p) (pn_by p) (ScopeExcept [name]).
(** pruner.rs 313-327: [and] of [Pruner<Only>] and of [Pruner<Except>]. *)
Definition pruner_and (name : string) (p : pruner) : pruner :=
  mk_pruner (pn_status p) (pn_by p)
    (match pn_scope p with
     | ScopeOnly l => ScopeOnly (l ++ [name])
     | ScopeExcept l => ScopeExcept (l ++ [name])
     | ScopeAll => ScopeAll
     end).

(** pruner.rs 357-376: [IntoSpec::into_spec]. *)
Definition into_spec (s : scope) : spec :=
  match s with
  | ScopeAll => Except []
  | ScopeExcept l => Except l
  | ScopeOnly l => Only l
  end.

(** pruner.rs 199-211: [From<Pruner<T>> for PruneSpec]. *)
Definition prune_spec_of (p : pruner) : prune_spec :=
  mk_prune_spec (pn_status p) (pn_by p) (into_spec (pn_scope p)).

(** The pruner expressions that type-check: a constructor, optionally [only]/[except] with a first
    executor, then any number of [and]. *)
Inductive limit := LimAge (d : delta) | LimLength (n : Z).
Inductive pruner_expr :=
| PAll (l : limit) (s : status)
| POnly (l : limit) (s : status) (first : string) (more : list string)
| PExcept (l : limit) (s : status) (first : string) (more : list string).
Definition eval_limit (l : limit) (s : status) : pruner :=
  match l with LimAge d => max_age d s | LimLength n => max_length n s end.
Definition eval_pruner (x : pruner_expr) : pruner :=
  match x with
  | PAll l s => eval_limit l s
  | POnly l s first more =>
      fold_left (fun p n => pruner_and n p) more (only first (eval_limit l s))
  | PExcept l s first more =>
      fold_left (fun p n => pruner_and n p) more (except first (eval_limit l s))
  end.

(** pruner.rs 141-146: [PrunerConfig]; the schedule is a separate argument of the ticker. *)
Record pruner_config := mk_config { pc_max_concurrency : option Z; pc_pruners : list prune_spec }.
(** pruner.rs 150-156. *)
Definition config_new : pruner_config := mk_config (Some 10) [].
(** pruner.rs 162-165. *)
Definition with_max_concurrency (l : option Z) (c : pruner_config) : pruner_config :=
  mk_config l (pc_pruners c).
(** pruner.rs 169-175. *)
Definition with_pruner (p : pruner) (c : pruner_config) : pruner_config :=
  mk_config (pc_max_concurrency c) (pc_pruners c ++ [prune_spec_of p]).
(** pruner.rs 179-185. *)
Definition with_pruners (l : list pruner) (c : pruner_config) : pruner_config :=
  mk_config (pc_max_concurrency c) (pc_pruners c ++ map prune_spec_of l).

(** One call on a [PrunerConfig]. *)
Inductive config_call :=
| CfgConcurrency (l : option Z)
| CfgPruner (p : pruner)
| CfgPruners (l : list pruner).
Definition apply_config (c : pruner_config) (call : config_call) : pruner_config :=
  match call with
  | CfgConcurrency l => with_max_concurrency l c
  | CfgPruner p => with_pruner p c
  | CfgPruners l => with_pruners l c
  end.

(** * One firing of the pruner, rexecutor/src/pruner/runner.rs 56-67

    All [prune_jobs] futures are collected into a [FuturesOrdered]; polling it starts them in order
    of the rules, without any limit, and lets them finish in any order.  The errors come out of the
    stream in order of the rules and are logged; [max_concurrency] (line 63) only limits the number
    of errors being logged at once, and logging is immediate. *)

(** A rule is waiting for its first poll, running, or done with a result. *)
Inductive rule_state := Waiting | Running | Done (r : result unit).

(** The firing: one state per rule, the backend calls made so far, and whether a panic in one of the
    futures has ended the runner's task. *)
Record firing := mk_firing {
  f_rules : list rule_state;
  f_calls : list nat;
  f_crashed : bool
}.

(** Lines 57-61: the futures are created, nothing has run. *)
Definition firing_start (c : pruner_config) : firing :=
  mk_firing (map (fun _ => Waiting) (pc_pruners c)) [] false.

(** The first rule not yet started. *)
Fixpoint first_waiting (l : list rule_state) : option nat :=
  match l with
  | [] => None
  | Waiting :: _ => Some O
  | _ :: l' => option_map S (first_waiting l')
  end.

(** What can happen next: the next future is polled for the first time (its backend call starts), or
    a running call finishes with a result; a panicking call unwinds through the runner's task. *)
Inductive firing_event := Poll_next | Finish (i : nat) (r : result unit).
Definition firing_step (s : firing) (e : firing_event) : option firing :=
  if f_crashed s then None
  else match e with
       | Poll_next =>
           match first_waiting (f_rules s) with
           | None => None
           | Some i => Some (mk_firing (set_nth i Running (f_rules s)) (f_calls s ++ [i]) false)
           end
       | Finish i r =>
           match nth_error (f_rules s) i with
           | Some Running =>
               Some (mk_firing (set_nth i (Done r) (f_rules s)) (f_calls s)
                       (match r with Panic => true | _ => false end))
           | _ => None
           end
       end.
Fixpoint firing_run (s : firing) (es : list firing_event) : option firing :=
  match es with
  | [] => Some s
  | e :: es' => match firing_step s e with None => None | Some s' => firing_run s' es' end
  end.

(** The stream is exhausted: line 66's [await] returns. *)
Definition firing_over (s : firing) : bool :=
  forallb (fun r => match r with Done _ => true | _ => false end) (f_rules s).

(** The same on the in-memory backend, where [prune_jobs] (memory.rs 458-484) has no await point, so
    that every call runs to its end when first polled; [true] at the end is a crash. *)
Fixpoint prune_all (now : time) (m : mem) (rules : list prune_spec) : mem * bool :=
  match rules with
  | [] => (m, false)
  | ps :: rules' =>
      match mem_prune now m ps with
      | (m', Panic) => (m', true)
      | (m', _) => prune_all now m' rules'
      end
  end.
