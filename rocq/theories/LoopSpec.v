(** Loops that end after a given number of rounds. *)
From Verif Require Import Ints DfsPrecise.

(** The result of a [while] loop if its body runs at most [n] times. *)
Fixpoint ends_within {S R} (n : nat) (step : S -> R + S) (s : S) : option R :=
  match step s with
  | inl r => Some r
  | inr s' => match n with O => None | Datatypes.S n' => ends_within n' step s' end
  end.

(** 195-199: the state (y, z) in which the loop of the square root starts. *)
Definition sqrt_start (x : Z) : Z * Z := (x, if x =? u64_max then x / 2 else (x + 1) / 2).
