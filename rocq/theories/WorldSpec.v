(** Vocabulary for the properties of a whole program on in-memory backends. *)
From Verif Require Import Base Chrono Types Query Memory MemSpec MemConc Codec Builder Runner RunnerSpec Ticker Pruner App World.

(** The jobs given to stream [k], in order. *)
Definition handed (k : nat) (tr : list cevent) : list job :=
  flat_map (fun ev => match ev with EvHandOut k' j => if Nat.eqb k' k then [j] else [] | _ => [] end) tr.

(** All jobs given out, in order. *)
Definition given (tr : list cevent) : list job :=
  flat_map (fun ev => match ev with EvHandOut _ j => [j] | _ => [] end) tr.

Section Spec.
  Context {Schedule Zone : Type}.
  Variable hash : forall e : executor, xe_data e -> Z.

  (** What has happened to the process, and to store [b]. *)
  Definition process_events (log : list (time * action Schedule Zone)) : list (time * app_event Schedule Zone) :=
    flat_map (fun x => match snd x with OnProcess ev => [(fst x, ev)] | _ => [] end) log.
  Definition labels (b : nat) (log : list (time * action Schedule Zone)) : list label :=
    flat_map (fun x => match snd x with OnStore b' l => if Nat.eqb b' b then [l] else [] | _ => [] end) log.

  (** The jobs a worker has taken, and the messages numbered, oldest first. *)
  Definition jobs_taken (w : worker) : list job :=
    rev (flat_map (fun o => match o with Taken _ (MJob j) => [j] | _ => [] end) (w_seen w)).
  (** The reports a worker has made, with the numbers of their messages, oldest first. *)
  Definition reports (w : worker) : list (nat * mop) :=
    rev (flat_map (fun o => match o with Reported n op => [(n, op)] | _ => [] end) (w_seen w)).

  (** The request of a cron executor for instant [next]: data that cannot be encoded is not sent. *)
  Definition cron_calls (e : executor) (data : xe_data e) (next : time) : list mop :=
    match enc_data (xe_codec e) data with
    | Some v =>
        [OpEnqueue {| eq_executor := ex_name (xe_consts e); eq_data := v; eq_metadata := JNull;
                      eq_max_attempts := ex_max_attempts (xe_consts e); eq_scheduled_at := next;
                      eq_tags := []; eq_priority := 0;
                      eq_criteria := Some (mk_criteria (Some (as_i64 (hash e data))) true (Some 0) [Scheduled] DoNothing) |}]
    | None => []
    end.

  (** The calls due for a number of firings (latest first), numbered from one, oldest first. *)
  Fixpoint per_firing (f : time -> list mop) (l : list (time * time)) : list (nat * mop) :=
    match l with
    | [] => []
    | (_, next) :: l' => per_firing f l' ++ map (fun o => (S (length l'), o)) (f next)
    end.

  (** The backend calls a task has reason to make, with its turns: a worker its reports, a cron
      executor one request for each instant, a pruner all its rules at each instant. *)
  Definition owed (bd : body Schedule Zone) : list (nat * mop) :=
    match bd with
    | BWorker _ w => reports w
    | BCron e _ _ data k => per_firing (cron_calls e data) (tk_fired k)
    | BPruner _ cfg k => per_firing (fun _ => map OpPrune (pc_pruners cfg)) (tk_fired k)
    end.

  (** Call number [c] of the store of task [i]. *)
  Definition call_at (w : world Schedule Zone) (i c : nat) : option call :=
    match nth_error (pr_tasks (wd_process w)) i with
    | Some t => match nth_error (wd_stores w) (ta_backend t) with Some s => nth_error (c_calls s) c | None => None end
    | None => None
    end.

  (** The calls task [i] has made, with its turns, oldest first. *)
  Definition made_by (w : world Schedule Zone) (i : nat) : list (nat * option mop) :=
    map (fun a => (ak_turn a, option_map cl_op (call_at w i (ak_call a))))
      (filter (fun a => Nat.eqb (ak_task a) i) (wd_asks w)).

  (** The operations called on store [b] by the program itself, in order. *)
  Definition outside (b : nat) (es : list (time * world_event Schedule Zone)) : list mop :=
    flat_map (fun x => match snd x with VCall b' o => if Nat.eqb b' b then [o] else [] | _ => [] end) es.

  (** The jobs taken by a task that works on store [b]; the backend calls it has reason to make. *)
  Definition taken_on (b : nat) (t : task Schedule Zone) : list job :=
    if Nat.eqb (ta_backend t) b then match ta_body t with BWorker _ w => jobs_taken w | _ => [] end else [].
  Definition owed_on (b : nat) (t : task Schedule Zone) : list mop :=
    if Nat.eqb (ta_backend t) b then map snd (owed (ta_body t)) else [].

  (** The calls of lib.rs the program makes, in order; those of them among the events of a process. *)
  Definition program (es : list (time * world_event Schedule Zone)) : list (time * app_event Schedule Zone) :=
    flat_map (fun x => match snd x with VApp ev => [(fst x, ev)] | _ => [] end) es.
  Definition not_of_tasks (es : list (time * app_event Schedule Zone)) : list (time * app_event Schedule Zone) :=
    filter (fun x => match snd x with AWorker _ _ | ATick _ _ => false | _ => true end) es.

  (** Loading and subscribing are not called by the program. *)
  Definition callable (o : mop) : bool := match o with OpLoad _ | OpSubscribe _ => false | _ => true end.

  (** The jobs a worker has taken and not reported on, oldest first. *)
  Definition has_report (n : nat) (l : list observation) : bool :=
    existsb (fun o => match o with Reported n' _ => Nat.eqb n' n | _ => false end) l.
  Definition unreported (w : worker) : list job :=
    flat_map (fun o => match o with Taken n (MJob j) => if has_report n (w_seen w) then [] else [j] | _ => [] end)
      (rev (w_seen w)).
  (** Those of a task that works on store [b]. *)
  Definition held_on (b : nat) (t : task Schedule Zone) : list job :=
    if Nat.eqb (ta_backend t) b then match ta_body t with BWorker _ w => unreported w | _ => [] end else [].

  (** The event is a step of task [i], or of a call on store [b]. *)
  Definition own (b i : nat) (ev : world_event Schedule Zone) : Prop :=
    match ev with
    | VRun b' _ => b' = b
    | VPoll k | VRecv k | VClose k | VStart k _ | VEnd k _ _ _ _ | VAnswer k _ | VFinish k
    | VCompute k _ _ | VWake k _ | VLeave k | VActed k _ | VRested k _ => k = i
    | _ => False
    end.
  (** Steps of tasks and of calls only. *)
  Definition by_itself (ev : world_event Schedule Zone) : Prop := match ev with VStore | VApp _ | VCall _ _ => False | _ => True end.
End Spec.

(** The operation can make a job with id [id] available again. *)
Definition reopens (id : Z) (o : mop) : bool :=
  match o with
  | OpRetryable i _ _ | OpSnoozed i _ | OpRerun i => i =? id
  | OpUpdate j => j_id j =? id
  | _ => false
  end.
(** The call is an enqueue that found job [id] in its way and has written it back. *)
Definition wrote_back (id : Z) (c : call) : bool :=
  match cl_op c, cl_pc c, cl_id c with
  | OpEnqueue e, PcDone (RId (Ok id')), None => match eq_criteria e with Some _ => id' =? id | None => false end
  | _, _, _ => false
  end.
(** The call is an enqueue. *)
Definition enqueues_job (c : call) : bool := match cl_op c with OpEnqueue _ => true | _ => false end.

(** A worker is at work, has not been told to stop, and has room for another job (C93_poll: its
    stream is then polled). *)
Definition has_room (e : executor) (wk : worker) : Prop :=
  w_life wk = Working /\ w_transit wk = None /\ w_open wk = true /\ w_cancelled wk = false
  /\ match ex_max_concurrency (xe_consts e) with
     | Some l => l = 0 \/ Z.of_nat (length (w_flights wk)) < l
     | None => True
     end.
(** The store is sound, its ids have not wrapped around, and the executor can run what waits for it. *)
Definition workable (e : executor) (s : cstate) : Prop :=
  m_poisoned (c_mem s) = false
  /\ Z.of_nat (length (filter enqueues_job (c_calls s))) <= 4294967296
  /\ forall j, In j (jobs_of (c_mem s)) -> waiting j -> j_executor j = ex_name (xe_consts e) ->
     forall now, runnable (xe_codec e) (xe_fns e) (after_hand_out now j).
