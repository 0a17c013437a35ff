(** The value of stable pools in tests: C122. *)
From Coq Require Import QArith Qabs.
From Verif Require Import Ints SplMath SwapCurve StableCurve RandomTests TestSpec StableTest CubicSpec CubicFacts.
Local Open Scope Z_scope.

(** C122.  All roots of the cubic equation of the tests are negative ... *)
Theorem C122_roots : forall amp a b x, 1 <= amp -> 0 < a -> 0 < b ->
  (cubic (cubic_c amp) (cubic_d amp a b) x == 0)%Q -> (x < 0)%Q.
Proof.
  exact (fun amp a b x H1 H2 H3 => root_nonpos (cubic_c amp) (cubic_d amp a b) x (c_nonneg amp H1) (d_pos amp a b H1 H2 H3)).
Qed.
Print Assumptions C122_roots.

(** ... so whatever solves it, the value of every pool is zero ... *)
Theorem C122_value : forall solve amp a b, solves solve -> 1 <= amp -> 0 <= a -> 0 <= b -> test_value solve amp a b = Val 0.
Proof. exact test_value_zero. Qed.
Print Assumptions C122_value.

(** ... and the tests pass for any trade and any withdrawal that leaves the vaults without debt. *)
Theorem C122_swap_blind : forall solve amp trade source ss sd d src dst, solves solve -> 1 <= amp -> 0 <= ss -> 0 <= sd ->
  trade source ss sd d = Val (src, dst) -> 0 <= src -> ss + src <= u128_max -> 0 <= dst <= sd ->
  swap_test (test_value solve amp) trade source ss sd d = Go tt.
Proof. exact swap_test_blind. Qed.
Print Assumptions C122_swap_blind.

Theorem C122_withdrawal_blind : forall solve amp payout n s a b wa wb, solves solve -> 1 <= amp -> 0 <= n <= s -> s <= u128_max ->
  payout n s a b = Val (wa, wb) -> 0 <= wa <= a -> 0 <= wb <= b ->
  withdrawal_test (test_value solve amp) payout n s a b = Go tt.
Proof. exact withdrawal_test_blind. Qed.
Print Assumptions C122_withdrawal_blind.

(** C122, refuted.  A trade that hands out all tokens of the other kind for one unit, and a withdrawal
    that empties the pool for one of two pool tokens, pass; with the value of the released program they do not. *)
Theorem C122_notices_refuted : exists amp source ss sd n s a b,
  drawn 1 100 amp /\ drawn64 source /\ drawn64 ss /\ drawn64 sd /\ drawn_part s n /\ drawn64 a /\ drawn64 b /\
  (forall solve, solves solve ->
     verdict_of (swap_test (test_value solve amp) give_all source ss sd AtoB) = Passed /\
     verdict_of (withdrawal_test (test_value solve amp) pay_all n s a b) = Passed) /\
  verdict_of (swap_test (normalized_value (Stable amp)) give_all source ss sd AtoB) = Violated /\
  verdict_of (withdrawal_test (normalized_value (Stable amp)) pay_all n s a b) = Violated.
Proof. exact blind_witness. Qed.
Print Assumptions C122_notices_refuted.

(** C122.  In particular the two tests of this program hold for every draw, with any solver. *)
Theorem C122_swap : forall solve amp source ss sd, solves solve -> drawn 1 100 amp -> drawn64 source -> drawn64 ss -> drawn64 sd ->
  passes_with_a_trade (stable_swap_test solve amp source ss sd) (swap_without_fees (Stable amp) source ss sd AtoB).
Proof. exact stable_swap_passes. Qed.
Print Assumptions C122_swap.

Theorem C122_withdrawal : forall solve amp n s a b, solves solve -> drawn 1 100 amp -> drawn_part s n -> drawn64 a -> drawn64 b ->
  holds (stable_withdrawal_test solve amp n s a b).
Proof. exact stable_withdrawal_passes. Qed.
Print Assumptions C122_withdrawal.

(** There is a solver. *)
Theorem C122_solver : solves small_step.
Proof. exact small_step_solves. Qed.
Print Assumptions C122_solver.

(** The tests here are those of RandomTests.v but for the value. *)
Theorem C122_same_tests : forall c source ss sd d n s a b,
  check_curve_value_from_swap c source ss sd d = swap_test (normalized_value c) (swap_without_fees c) source ss sd d /\
  check_pool_value_from_withdraw c n s a b =
    withdrawal_test (normalized_value c) (fun n s a b => pool_tokens_to_trading_tokens c n s a b Floor) n s a b.
Proof. exact (fun _ _ _ _ _ _ _ _ _ => conj eq_refl eq_refl). Qed.
Print Assumptions C122_same_tests.

(** The draws that refute C95 for the released value pass; a pool of 10 and 10 has the value 20, in tests 0.
    Had the root come out positive, at 20, the value would have been 10. *)
Example C122_case :
  normalized_value (Stable 7) 10 10 = Val (20 * SPL_ONE) /\ test_value small_step 7 10 10 = Val 0 /\
  cubic_c 7 = 27 /\ cubic_d 7 10 10 = 224000 /\ (0 < cubic 27 224000 (-60))%Q /\ (cubic 27 224000 (-61) < 0)%Q /\
  test_value (fun _ d => inject_Z d) 1 1 2 = Val (48 * SPL_ONE) /\ saturate_u128 (2 ^ 128) = 2 ^ 128 - 1 /\
  value_of_root 20 = Val (10 * SPL_ONE) /\ value_of_root (25 # 10 ^ 12) = Val 15 /\ value_of_root (-20) = Val 0 /\
  value_swap (Stable 61) 210061456528772119 102477608470617105 467499247472840983 = Violated /\
  stable_swap_test small_step 61 210061456528772119 102477608470617105 467499247472840983 = Passed /\
  value_withdraw (Stable 4) 1 2 2 12 = Violated /\ stable_withdrawal_test small_step 4 1 2 2 12 = Passed.
Proof. repeat split; vm_compute; reflexivity. Qed.
