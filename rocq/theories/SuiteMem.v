(** The tests of the conformance suite, executed symbolically on the in-memory backend. *)
From Verif Require Import Base Chrono Types Query Builder Memory PgRow PgQuery Pg Suite SuiteProofs SuitePrune.

Theorem mem_suite p : Forall (fun t => forall c, 0 <= c <= 253402300799000000000 ->
  survives (memory p) (steady 0 5000000000 0 253402300799000000000) (rests 0 253402300799000000000) (snd t) mem_init c) suite.
Proof.
  unfold suite. repeat apply Forall_cons; try apply Forall_nil; intros c Hc; cbn [snd];
    match goal with |- survives _ _ _ test_prune _ _ => apply mem_prune_test; exact Hc | _ => run (idle_memory p) end.
Qed.
