(** Vocabulary for the properties of the [Rexecutor] object. *)
From Verif Require Import Base Chrono Types Query Memory Codec Builder Runner Ticker Pruner App.

Section Spec.
  Context {Schedule Zone : Type}.
  Variable utc : Zone.

  (** What a background task is for. *)
  Inductive job_of_task :=
  | RunsJobs (e : executor)
  | FiresCron (e : executor) (s : Schedule) (z : Zone) (data : xe_data e)
  | Prunes (s : Schedule) (cfg : pruner_config).
  Definition purpose (t : task Schedule Zone) : job_of_task :=
    match ta_body t with
    | BWorker e _ => RunsJobs e
    | BCron e s z data _ => FiresCron e s z data
    | BPruner s cfg _ => Prunes s cfg
    end.

  (** The tasks a call asks for, each with the number of the [Rexecutor] it is made on: a cron
      executor has its schedule in UTC unless a zone is given, and its jobs are also to be run. *)
  Definition asked (ev : app_event Schedule Zone) : list (nat * job_of_task) :=
    match ev with
    | AExecutor h e => [(h, RunsJobs e)]
    | ACron h e s data => [(h, FiresCron e s utc data); (h, RunsJobs e)]
    | ACronIn h e s data z => [(h, FiresCron e s z data); (h, RunsJobs e)]
    | APruner h s cfg => [(h, Prunes s cfg)]
    | _ => []
    end.

  (** The backends the [Rexecutor]s were made with, in the order of their creation. *)
  Definition made (es : list (time * app_event Schedule Zone)) : list nat :=
    flat_map (fun x => match snd x with ANew b => [b] | _ => [] end) es.

  (** The event shuts [Rexecutor] number [h] down, or loses the program's hold on it. *)
  Definition shuts (h : nat) (ev : app_event Schedule Zone) : Prop := ev = AShutdown h \/ ev = ADropGuard h.
  Definition shut (h : nat) (es : list (time * app_event Schedule Zone)) : Prop :=
    exists now ev, In (now, ev) es /\ shuts h ev.

  (** The task has just been started, at clock reading [now]. *)
  Definition just_started (now : time) (t : task Schedule Zone) : Prop :=
    match ta_body t with
    | BWorker _ w =>
        w_flights w = [] /\ w_seen w = [] /\ w_life w = Working /\ w_open w = true /\ w_cancelled w = false
        /\ w_transit w = None
    | BCron _ _ _ _ k | BPruner _ _ k => tk_phase k = Computing /\ tk_clock k = now /\ tk_fired k = []
    end.

  (** The task has come to its end: regularly, or by a panic. *)
  Definition ended (t : task Schedule Zone) : Prop :=
    match ta_body t with
    | BWorker _ w => w_life w = Ended
    | BCron _ _ _ _ k | BPruner _ _ k => tk_phase k = Stopped
    end.
  Definition died (t : task Schedule Zone) : Prop :=
    match ta_body t with
    | BWorker _ w => w_life w = Crashed_worker
    | BCron _ _ _ _ k | BPruner _ _ k => tk_phase k = Crashed
    end.

  (** The messages a task has taken from its stream; the actions a loop has begun. *)
  Definition taken_by (t : task Schedule Zone) : list (nat * message) :=
    match ta_body t with
    | BWorker _ w => flat_map (fun o => match o with Taken n m => [(n, m)] | _ => [] end) (w_seen w)
    | _ => []
    end.
  Definition begun_by (t : task Schedule Zone) : list (time * time) :=
    match ta_body t with
    | BWorker _ _ => []
    | BCron _ _ _ _ k | BPruner _ _ k => tk_fired k
    end.

  (** The number of jobs of the named executor being dealt with in the whole process, and the number
      of times the program has asked for them to be run. *)
  Definition busy (name : string) (t : task Schedule Zone) : nat :=
    match ta_body t with
    | BWorker e w => if String.eqb (ex_name (xe_consts e)) name then length (w_flights w) else 0
    | _ => 0
    end.
  Definition all_busy (name : string) (s : process Schedule Zone) : nat := list_sum (map (busy name) (pr_tasks s)).
  Definition runs_named (name : string) (x : nat * job_of_task) : bool :=
    match snd x with RunsJobs e => String.eqb (ex_name (xe_consts e)) name | _ => false end.
  Definition registrations (name : string) (es : list (time * app_event Schedule Zone)) : nat :=
    length (filter (runs_named name) (flat_map (fun x => asked (snd x)) es)).
End Spec.
Arguments job_of_task : clear implicits.

(** Somebody has tried to set the global backend. *)
Definition sets {Schedule Zone} (es : list (time * app_event Schedule Zone)) : Prop :=
  exists now h, In (now, ASetGlobal h) es.

(** The program has given up [Rexecutor] number [h]: it dropped it, shut it down, or tried to make
    its backend the global one when that had been tried before. *)
Definition given_up {Schedule Zone} (h : nat) (es : list (time * app_event Schedule Zone)) : Prop :=
  exists es1 now ev es2, es = es1 ++ (now, ev) :: es2
    /\ (ev = ADrop h \/ shuts h ev \/ (ev = ASetGlobal h /\ sets es1)).
