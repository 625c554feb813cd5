(** The process-wide backend and the API calls that use it.

    The state is the list of the process's in-memory backends and the index of the global one.
    Simplification: [OnceCell::set] (tokio) is one atomic step. *)
From Verif Require Import Base Chrono Types Query Memory Codec Builder.

(** rexecutor/src/global_backend.rs 22: [GLOBAL_BACKEND]; the cell holds an [Arc] of one of the
    backends. *)
Record gstate := mk_gstate { g_cell : option nat; g_backends : list mem }.

(** global_backend.rs 33-39: [GlobalBackend::set], called by [Rexecutor::set_global_backend]
    (rexecutor/src/lib.rs 785-789) with backend number [i]. *)
Definition g_set (s : gstate) (i : nat) : gstate * rres unit :=
  match g_cell s with
  | Some _ => (s, RErr GlobalBackendError)
  | None => (mk_gstate (Some i) (g_backends s), ROk tt)
  end.

(** global_backend.rs 55-60: [GlobalBackend::as_ref]. *)
Definition g_as_ref (s : gstate) : rres nat :=
  match g_cell s with
  | None => RErr GlobalBackendError
  | Some i => ROk i
  end.

(** A call [f] on backend number [i]; [None] when there is no such backend (cannot happen for an
    [Arc]). *)
Definition on_backend {A} (s : gstate) (i : nat) (f : mem -> mem * rres A) : option (gstate * rres A) :=
  match nth_error (g_backends s) i with
  | None => None
  | Some m => let (m', r) := f m in Some (mk_gstate (g_cell s) (set_nth i m' (g_backends s)), r)
  end.

(** [f(GlobalBackend::as_ref()?)]: the shape of builder.rs 312-317 and of executor.rs 361-366,
    411-413, 455-463, 512-518. *)
Definition on_global {A} (s : gstate) (f : mem -> mem * rres A) : option (gstate * rres A) :=
  match g_as_ref s with
  | ROk i => on_backend s i f
  | RErr e => Some (s, RErr e)
  | RPanic => Some (s, RPanic)
  end.

(** The calls of one executor, on the global backend ([None]) or on a given one ([Some i]). *)
Inductive gcall (D M : Type) :=
| GSet (i : nat)
| GEnqueue (on : option nat) (b : builder D M)
| GCancel (on : option nat) (id : Z) (reason : string)
| GRerun (on : option nat) (id : Z)
| GUpdate (on : option nat) (t : tjob D M)
| GQuery (on : option nat) (w : where_ D M).
Arguments GSet {D M}. Arguments GEnqueue {D M}. Arguments GCancel {D M}. Arguments GRerun {D M}.
Arguments GUpdate {D M}. Arguments GQuery {D M}.

(** What the caller gets back. *)
Inductive gres (D M : Type) :=
| GRUnit (r : rres unit)
| GRId (r : rres Z)
| GRJobs (r : rres (list (tjob D M))).
Arguments GRUnit {D M}. Arguments GRId {D M}. Arguments GRJobs {D M}.

Section Global.
  Context {D M : Type}.
  Variable c : codec D M.
  Variable ex : exec_consts.
  Variable p : profile.

  (** Wraps the result of a call. *)
  Definition tag_result {A} (f : rres A -> gres D M) (r : option (gstate * rres A))
    : option (gstate * gres D M) :=
    match r with None => None | Some (s, a) => Some (s, f a) end.

  (** The backend a call goes to: builder.rs 312-341, executor.rs 361-534. *)
  Definition on_target {A} (s : gstate) (on : option nat) (f : mem -> mem * rres A)
    : option (gstate * rres A) :=
    match on with None => on_global s f | Some i => on_backend s i f end.

  (** One call at clock reading [now]. *)
  Definition g_step (now : time) (s : gstate) (call : gcall D M) : option (gstate * gres D M) :=
    match call with
    | GSet i => let (s', r) := g_set s i in Some (s', GRUnit r)
    | GEnqueue on b => tag_result GRId (on_target s on (enqueue_to c ex b (mem_enqueue now)))
    | GCancel on id reason =>
        tag_result GRUnit (on_target s on (cancel_job_on id reason (mem_mark_cancelled now)))
    | GRerun on id => tag_result GRUnit (on_target s on (rerun_job_on id (mem_rerun p now)))
    | GUpdate on t => tag_result GRUnit (on_target s on (update_job_on c t mem_update))
    | GQuery on w =>
        tag_result GRJobs
          (on_target s on (fun m => (m, query_jobs_on c (ex_name ex) w (fun q => mem_query q m))))
    end.

  (** A sequence of calls with their clock readings and results. *)
  Fixpoint g_run (s : gstate) (cs : list (time * gcall D M)) : option (gstate * list (gres D M)) :=
    match cs with
    | [] => Some (s, [])
    | (now, call) :: cs' =>
        match g_step now s call with
        | None => None
        | Some (s', r) =>
            match g_run s' cs' with None => None | Some (s'', rs) => Some (s'', r :: rs) end
        end
    end.
End Global.
