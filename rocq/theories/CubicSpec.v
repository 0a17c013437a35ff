(** What is expected of a program that solves cubic equations. *)
From Coq Require Import QArith Qabs.
From Verif Require Import Ints SwapCurve StableTest.
Local Open Scope Z_scope.

(** Its answer is better than the answer zero, unless that is exact. *)
Definition solves (solve : solver) : Prop := forall c d, 0 <= c -> 0 <= d ->
  (Qabs (cubic c d (solve c d)) < Qabs (cubic c d 0))%Q \/ (cubic c d 0 == 0 /\ solve c d == 0)%Q.

(** A trade and a withdrawal that nobody would want. *)
Definition give_all (source ss sd : Z) (d : trade_direction) : outcome (Z * Z) := Val (source, sd).
Definition pay_all (n s a b : Z) : outcome (Z * Z) := Val (a, b).
