(** The in-memory backend used from several threads at once: calls in progress, advanced one atomic
    action at a time in any order, and worker streams polling concurrently.

    Granularity: one step is one critical section of the jobs lock, one fetch-and-add of the id
    counter, one notification of the subscribers of an executor, one clock reading or one receive.
    The operations of memory.rs 389-506 hold the write lock from start to end (also while
    notifying), hence are one step.  Clock readings are arguments of the steps; they need not be
    increasing unless a theorem says so. *)
From Verif Require Import Base Chrono Types Query Memory.

(** Where a call stands.  memory.rs 214-241 (the two insert functions) and 383-388 ([enqueue]). *)
Inductive pc :=
| PcStart                            (* nothing done yet *)
| PcDraw                             (* 231 -> 215: no match was found; about to draw an id *)
| PcPush (id : Z)                    (* 219: id drawn, about to lock and push *)
| PcNotify (id : Z)                  (* 224: pushed, about to notify *)
| PcWriteBack (j : job)              (* 238: a clone was matched and edited, about to update *)
| PcDone (r : mres).                 (* returned *)

(** A call: the operation, where it stands and, for the theorems, the id it drew (the local
    variable of memory.rs 217). *)
Record call := mk_call { cl_op : mop; cl_pc : pc; cl_id : option Z }.

(** A worker stream, memory.rs 34-73.  The fields besides the delay record, for the theorems, what
    the stream saw ([seen]), when it read the clock ([read]) and when it went to sleep ([slept]). *)
Inductive sphase :=
| SCheck                                                     (* 46: about to query *)
| SGot (seen : option time)                                  (* 51: about to read the clock *)
| SLoad (seen : option time) (read : time) (delay : Z)       (* 60: about to load a job *)
| SSelect (seen : option time) (read : time) (delay : Z)     (* 67: about to sleep *)
| SWait (seen : option time) (read slept : time) (delay : Z) (* 67: in [select!] *)
| SYield (r : result job)                                    (* 65, 376: produced an item *)
| SDead.                                                     (* panicked, memory.rs 163 *)

(** The whole system.  Stream number k listens on subscription number k. *)
Record cstate := mk_c { c_mem : mem; c_calls : list call; c_streams : list sphase }.

(** An empty backend without callers and streams, memory.rs 110-112. *)
Definition c_init : cstate := mk_c mem_init [] [].

(** memory.rs 41-42. *)
Definition default_delay : Z := 30 * ns_per_s.
Definition delta : Z := 15 * ns_per_ms.

(** memory.rs 46-58: the delay. *)
Definition stream_delay (seen : option time) (now : time) : Z :=
  match seen with
  | Some t =>
      Z.min (match to_std (dt_diff t now) with Some d => d | None => delta end) default_delay
  | None => default_delay
  end.

(** What the steps do that is visible to the theorems. *)
Inductive cevent :=
| EvHandOut (k : nat) (j : job)              (* stream k was given j *)
| EvInsert (i : nat) (j : job)               (* call i stored the new job j *)
| EvWriteBack (i : nat) (j : job) (r : result unit)  (* call i wrote back the matched job j *)
| EvApply (i : nat) (now : time) (o : mop) (r : mres).  (* call i executed its whole operation *)

(** memory.rs 214-241, 383-388: one atomic action of an [enqueue] call; everything else is one
    action ([mem_step]). *)
Definition call_step (p : profile) (i : nat) (now : time) (m : mem) (c : call)
  : mem * call * list cevent :=
  match cl_pc c, cl_op c with
  | PcStart, OpEnqueue e =>
      match eq_criteria e with
      | None => (m, mk_call (cl_op c) PcDraw (cl_id c), [])
      | Some _ =>
          match matching_jobs (enqueuable_matches now e) m with
          | Ok [] => (m, mk_call (cl_op c) PcDraw (cl_id c), [])
          | Ok (k :: _) => (m, mk_call (cl_op c) (PcWriteBack (job_replace e (kj_job k))) (cl_id c), [])
          | Err err => (m, mk_call (cl_op c) (PcDone (RId (Err err))) (cl_id c), [])
          | Panic => (m, mk_call (cl_op c) (PcDone (RId Panic)) (cl_id c), [])
          end
      end
  | PcStart, o =>
      let (m', r) := mem_step p now m o in
      (m', mk_call o (PcDone r) (cl_id c), [EvApply i now o r])
  | PcDraw, OpEnqueue e =>
      (mk_mem (m_jobs m) (wrap_i32 (m_next_id m + 1)) (m_subs m) (m_paused m) (m_poisoned m),
       mk_call (cl_op c) (PcPush (m_next_id m)) (Some (m_next_id m)), [])
  | PcPush id, OpEnqueue e =>
      if m_poisoned m then (m, mk_call (cl_op c) (PcDone (RId (Err BadState))) (cl_id c), [])
      else (set_jobs (m_jobs m ++ [into_job now id e]) m, mk_call (cl_op c) (PcNotify id) (cl_id c),
            [EvInsert i (kj_job (into_job now id e))])
  | PcNotify id, OpEnqueue e =>
      (notify_subscribers (eq_executor e) (eq_scheduled_at e) m,
       mk_call (cl_op c) (PcDone (RId (Ok id))) (cl_id c), [])
  | PcWriteBack j, OpEnqueue e =>
      let (m', r) := mem_update m j in
      (m', mk_call (cl_op c)
             (PcDone (RId match r with Ok _ => Ok (j_id j) | Err err => Err err | Panic => Panic end))
             (cl_id c), [EvWriteBack i j r])
  | _, _ => (m, c, [])
  end.

(** memory.rs 44-72: one step of a stream that is not woken by a message. *)
Definition stream_step (p : profile) (k : nat) (now : time) (m : mem) (s : sub) (ph : sphase)
  : mem * sphase * list cevent :=
  match ph with
  | SCheck =>
      match next_available (sub_executor s) m with
      | Ok t => (m, SGot t, [])
      | Err e => (m, SYield (Err e), [])
      | Panic => (m, SDead, [])
      end
  | SGot t =>
      let d := stream_delay t now in
      (m, if d <=? delta then SLoad t now d else SSelect t now d, [])
  | SLoad t read d =>
      match mem_load p now m (sub_executor s) with
      | (m', Ok (Some j)) => (m', SYield (Ok j), [EvHandOut k j])
      | (m', Ok None) => (m', SSelect t read d, [])
      | (m', Err e) => (m', SYield (Err e), [])
      | (m', Panic) => (m', SDead, [])
      end
  | SSelect t read d => (m, SWait t read now d, [])
  | SWait t read slept d => (m, if slept + d <=? now then SCheck else ph, [])
  | SYield _ => (m, SCheck, [])
  | SDead => (m, SDead, [])
  end.

(** What may happen next.  Calls of [OpLoad] and [OpSubscribe] are not part of the public interface
    and are ignored by [LCall]: loading is done by streams, subscribing by [LSubscribe]. *)
Inductive label :=
| LCall (o : mop)                    (* somebody calls an operation *)
| LRun (i : nat) (now : time)        (* call i advances *)
| LSubscribe (ex : string)           (* memory.rs 360-380 *)
| LStream (k : nat) (now : time)     (* stream k advances; when waiting: its timer fires if it may *)
| LRecv (k : nat).                   (* stream k, waiting, receives a message *)

(** memory.rs 68: [recv] takes one message off the queue. *)
Definition sub_pop (s : sub) : sub := mk_sub (sub_executor s) (tl (sub_queue s)).

(** One step of the system; a label that is not enabled changes nothing.  memory.rs 44-72,
    214-241, 356-513. *)
Definition conc_step (p : profile) (s : cstate) (l : label) : cstate * list cevent :=
  match l with
  | LCall (OpLoad _ | OpSubscribe _) => (s, [])
  | LCall o => (mk_c (c_mem s) (c_calls s ++ [mk_call o PcStart None]) (c_streams s), [])
  | LRun i now =>
      match nth_error (c_calls s) i with
      | None => (s, [])
      | Some c =>
          let '(m', c', ev) := call_step p i now (c_mem s) c in
          (mk_c m' (set_nth i c' (c_calls s)) (c_streams s), ev)
      end
  | LSubscribe ex =>
      (mk_c (mem_subscribe ex (c_mem s)) (c_calls s) (c_streams s ++ [SCheck]), [])
  | LStream k now =>
      match nth_error (c_streams s) k, nth_error (m_subs (c_mem s)) k with
      | Some ph, Some sb =>
          let '(m', ph', ev) := stream_step p k now (c_mem s) sb ph in
          (mk_c m' (c_calls s) (set_nth k ph' (c_streams s)), ev)
      | _, _ => (s, [])
      end
  | LRecv k =>
      match nth_error (c_streams s) k, nth_error (m_subs (c_mem s)) k with
      | Some (SWait _ _ _ _), Some sb =>
          match sub_queue sb with
          | [] => (s, [])
          | _ :: _ => (mk_c (set_subs (set_nth k (sub_pop sb) (m_subs (c_mem s))) (c_mem s)) (c_calls s)
                         (set_nth k SCheck (c_streams s)), [])
          end
      | _, _ => (s, [])
      end
  end.

(** An execution: any sequence of labels. *)
Fixpoint conc_run (p : profile) (s : cstate) (ls : list label) : cstate :=
  match ls with
  | [] => s
  | l :: ls' => conc_run p (fst (conc_step p s l)) ls'
  end.

(** Its events. *)
Fixpoint conc_trace (p : profile) (s : cstate) (ls : list label) : list cevent :=
  match ls with
  | [] => []
  | l :: ls' => snd (conc_step p s l) ++ conc_trace p (fst (conc_step p s l)) ls'
  end.
