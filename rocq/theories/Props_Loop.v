(** The rounds of the square root: C107. *)
From Verif Require Import Ints Tactics DfsPrecise LoopSpec LoopFacts.

(** C107.  The [while] loop of the square root runs its body at most 37 times, for every
    u64, and leaves the rounded root. *)
Theorem C107_rounds : forall x, is_u64 x ->
  ends_within 37 (babylonian_step x) (sqrt_start x) = Some (Val (Z.sqrt x)).
Proof. exact sqrt_loop. Qed.
Print Assumptions C107_rounds.

(** 37 cannot be lowered. *)
Theorem C107_least : ends_within 36 (babylonian_step u64_max) (sqrt_start u64_max) = None.
Proof. exact sqrt_loop_max. Qed.
Print Assumptions C107_least.

(** The program starts the loop there, and returns what the loop leaves. *)
Theorem C107_start : forall x, is_u64 x ->
  match add_in u64_max x 1 with Val v => cdiv v 2 | Non => cdiv x 2 | Panic => Panic end = Val (snd (sqrt_start x)).
Proof. exact sqrt_starts. Qed.
Print Assumptions C107_start.

Theorem C107_program : forall x n r, is_u64 x ->
  ends_within n (babylonian_step x) (sqrt_start x) = Some (Val r) -> sqrt_babylonian x false = Val r.
Proof. exact sqrt_program. Qed.
Print Assumptions C107_program.

Example C107_case :
  ends_within 0 (babylonian_step 1) (sqrt_start 1) = Some (Val 1) /\
  ends_within 5 (babylonian_step 50) (sqrt_start 50) = Some (Val 7) /\
  ends_within 3 (babylonian_step 50) (sqrt_start 50) = None /\
  ends_within 34 (babylonian_step (2 ^ 59)) (sqrt_start (2 ^ 59)) = Some (Val 759250124).
Proof. vm_compute. repeat split. Qed.
