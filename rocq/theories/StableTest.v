(** stable.rs 287-309: the value of a stable pool in builds for tests, and the tests that use it.
    A cubic equation is handed to the library [roots] and its root is turned into a fixed-point number.
    The library is a parameter here; what is expected of it is in CubicSpec.v. *)
From Coq Require Import QArith.
From Verif Require Import Ints SplMath SwapCurve StableCurve RandomTests.
Local Open Scope Z_scope.

(** stable.rs 292-294: x^3 + c x + d, without the square *)
Definition cubic_c (amp : Z) : Z := 4 * amp - 1.
Definition cubic_d (amp x y : Z) : Z := 16 * amp * x * y * (x + y).
Definition cubic (c d : Z) (x : Q) : Q := (x * x * x + inject_Z c * x + inject_Z d)%Q.

(** [f64::round]: to the nearest whole number, halves away from zero *)
Definition round (q : Q) : Z :=
  if 0 <=? Qnum q then (2 * Qnum q + Zpos (Qden q)) / (2 * Zpos (Qden q))
  else - ((2 * - Qnum q + Zpos (Qden q)) / (2 * Zpos (Qden q))).
(** [as u128] saturates *)
Definition saturate_u128 (z : Z) : Z := Z.max 0 (Z.min u128_max z).

(** stable.rs 303-308 *)
Definition value_of_root (x0 : Q) : outcome Z :=
  let root_uint := saturate_u128 (round (x0 * inject_Z (10 ^ 11))%Q) in
  let? precision := spl_new (10 ^ 11) in
  let? two := spl_new 2 in
  let? r := spl_new root_uint in
  let? r := spl_div r precision in
  spl_div r two.

(** The library: coefficients of the cubic to a root. *)
Definition solver := Z -> Z -> Q.
Definition test_value (solve : solver) (amp a b : Z) : outcome Z :=
  value_of_root (solve (cubic_c amp) (cubic_d amp a b)).

(** ** The tests, with the trade and the withdrawal under test as parameters as well *)

(** calculator.rs 390-437 *)
Definition swap_test (value : Z -> Z -> outcome Z) (trade : Z -> Z -> Z -> trade_direction -> outcome (Z * Z))
    (source swap_source swap_dest : Z) (d : trade_direction) : test unit :=
  let! (src, dst) := unwrap (trade source swap_source swap_dest d) in
  let (a, b) := in_order d swap_source swap_dest in
  let! previous_value := unwrap (value a b) in
  let! new_source := unwrap (add_in u128_max swap_source src) in
  let! new_dest := unwrap (csub swap_dest dst) in
  let (a', b') := in_order d new_source new_dest in
  let! new_value := unwrap (value a' b') in
  let! _ := assert (previous_value <=? new_value) in
  let! difference := unwrap (spl_sub new_value previous_value) in
  let! difference := unwrap (spl_to_imprecise difference) in
  assert (difference <=? 1).

(** calculator.rs 496-538 *)
Definition withdrawal_test (value : Z -> Z -> outcome Z) (payout : Z -> Z -> Z -> Z -> outcome (Z * Z))
    (pool_tokens pool_supply a b : Z) : test unit :=
  let! (wa, wb) := unwrap (payout pool_tokens pool_supply a b) in
  let! a' := tsub a wa in
  let! b' := tsub b wb in
  let! supply' := tsub pool_supply pool_tokens in
  let! value_before := unwrap (value a b) in
  let! value_after := unwrap (value a' b') in
  check_value_per_token value_before value_after pool_supply supply'.

(** stable.rs 520-537 and 491-518 in a test build *)
Definition stable_swap_test (solve : solver) (amp source swap_source swap_dest : Z) : verdict :=
  verdict_of (swap_test (test_value solve amp) (swap_without_fees (Stable amp)) source swap_source swap_dest AtoB).
Definition stable_withdrawal_test (solve : solver) (amp pool_tokens pool_supply a b : Z) : verdict :=
  verdict_of (
    let! _ := assume_shares 0 pool_tokens pool_supply a b in
    withdrawal_test (test_value solve amp) (fun n s a b => pool_tokens_to_trading_tokens (Stable amp) n s a b Floor)
      pool_tokens pool_supply a b).
