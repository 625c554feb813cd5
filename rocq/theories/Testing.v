(** The [assert_enqueued!] macro, rexecutor/src/testing.rs 131-246, on an in-memory backend.

    A macro invocation is a form (how many jobs, which backend) and a non-empty list of conditions
    (an empty list does not compile: rule 243 would recurse for ever).  An assertion either passes
    or panics. *)
From Verif Require Import Base Chrono Types Query Memory.

(** The invocation forms, testing.rs 133-147 and 243-245.  [To] forms name a backend, the others
    use the global backend. *)
Inductive form :=
| OneJobTo            (* 1 job, to: b, ... *)
| JobsTo (n : Z)      (* n jobs, to: b, ... *)
| OneJob              (* 1 job, ... *)
| Jobs (n : Z)        (* n jobs, ... *)
| To                  (* to: b, ... *)
| Plain.              (* ... *)

(** The two [@internal] arms: line 152-164 checks that there is some job, 165-184 that there are
    exactly [n]. *)
Inductive check := Some_job | Exactly (n : Z).

(** Which arm a form expands to.  Lines 134 and 146 write the token [1], which matches the arm at
    152.  Lines 137, 143 and 148-151 forward a captured [$n:literal]; Rust treats a forwarded
    literal fragment as opaque, so it only matches the [$n:literal] arm at 165. *)
Definition expand (f : form) : check :=
  match f with
  | OneJobTo => Some_job
  | JobsTo n => Exactly n
  | OneJob => Exactly 1
  | Jobs n => Exactly n
  | To => Some_job
  | Plain => Exactly 1
  end.

(** The form uses the global backend, testing.rs 140, 143, 244. *)
Definition uses_global (f : form) : bool :=
  match f with OneJob | Jobs _ | Plain => true | _ => false end.

(** The conditions, testing.rs 185-242; data and metadata already serialized ([to_value(..).unwrap()]
    panics otherwise). *)
Inductive cond :=
| WithDataC (d : json)
| WithMetadataC (m : json)
| TaggedWith (ts : list string)
| ScheduledAtC (t : time)
| ScheduledAfterC (t : time)
| ScheduledBeforeC (t : time)
| ForExecutorC (e : string).

(** The query each condition pushes, testing.rs 185-242. *)
Definition cond_query (c : cond) : query :=
  match c with
  | WithDataC d => QDataEquals d
  | WithMetadataC m => QMetadataEquals m
  | TaggedWith ts => QTagsAllOf ts
  | ScheduledAtC t => QScheduledAtEqual t
  | ScheduledAfterC t => QScheduledAtAfter t
  | ScheduledBeforeC t => QScheduledAtBefore t
  | ForExecutorC e => QExecutorEqual e
  end.

(** testing.rs 148-184: does the assertion pass?  [backend] is the named backend ([None] never
    happens for [To] forms) or the global one ([None] when not set: line 149 panics). *)
Definition assertion_passes (f : form) (conds : list cond) (backend : option mem) : bool :=
  match backend with
  | None => false
  | Some m =>
      match mem_query (QAnd (map cond_query conds)) m, mem_query (QTagsAllOf []) m with
      | Ok jobs, Ok _ =>
          match expand f with
          | Some_job => negb (match jobs with [] => true | _ => false end)
          | Exactly n => Z.of_nat (length jobs) =? n
          end
      | _, _ => false
      end
  end.

(** The macro as it is invoked: [named] is the backend of a [to:] form, [global] the global backend
    if one is set, testing.rs 133-151. *)
Definition assert_enqueued (f : form) (conds : list cond) (named : mem) (global : option mem) : bool :=
  assertion_passes f conds (if uses_global f then global else Some named).
