(** Concrete requests and histories used in the examples beside the theorems. *)
From Verif Require Import Base Chrono Types Query Memory MemSpec.

(** A request for executor [ex] with the given priority and time, three attempts, no criteria. *)
Definition req (ex : string) (prio t : Z) : enqueuable :=
  {| eq_executor := ex; eq_data := JStr "payload"; eq_metadata := JNull; eq_max_attempts := 3;
     eq_scheduled_at := t; eq_tags := ["a"%string]; eq_priority := prio; eq_criteria := None |}.

(** The same with uniqueness criteria. *)
Definition ureq (ex : string) (prio t : Z) (c : criteria) : enqueuable :=
  {| eq_executor := ex; eq_data := JStr "other"; eq_metadata := JNull; eq_max_attempts := 7;
     eq_scheduled_at := t; eq_tags := []; eq_priority := prio; eq_criteria := Some c |}.

Definition mail : string := "mail".
Definition push : string := "push".
Definition boom : exec_error := mk_exec_error (EOther "custom") "boom".
Definition stop : exec_error := mk_exec_error ECancelled "not needed".

(** One millisecond in nanoseconds. *)
Definition ms : Z := 1000000.

(** Two mail jobs, one push job; one mail job is run, fails, is retried, snoozed and completed. *)
Definition h_sample : list (time * mop) :=
  [ (0, OpSubscribe mail);
    (1, OpEnqueue (req mail 0 5));
    (2, OpEnqueue (req mail 0 3));
    (3, OpEnqueue (req push 0 4));
    (4, OpLoad mail);
    (5, OpRetryable 1 6 boom);
    (6, OpLoad mail);
    (7, OpSnoozed 0 2000);
    (8, OpLoad mail);
    (9, OpComplete 0) ].

Definition m_sample : mem := mem_run Debug mem_init h_sample.

(** Evaluates the list in a hypothesis [In x l]. *)
Ltac list_in H :=
  match type of H with
  | In ?x ?l =>
      let l' := eval vm_compute in l in
      let E := fresh in
      assert (E : l = l') by (vm_compute; reflexivity); rewrite E in H; clear E
  end.
