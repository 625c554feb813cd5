(** The tests of the conformance suite, executed symbolically on the Postgres backend. *)
From Verif Require Import Base Chrono Types Query Builder Memory PgRow PgQuery Pg Suite SuiteProofs SuitePrune.

Theorem pg_suite ident : Forall (fun t => forall c, 0 <= c <= 253402300799000000000 ->
  survives (postgres ident) (steady 1000 30000000 0 253402300799000000000) (rests 0 253402300799000000000) (snd t) tbl_init c) suite.
Proof.
  unfold suite. repeat apply Forall_cons; try apply Forall_nil; intros c Hc; cbn [snd];
    match goal with |- survives _ _ _ test_prune _ _ => apply pg_prune_test; exact Hc | _ => run (idle_postgres ident) end.
Qed.
