(** Fixed-point arithmetic: C14 - C18. *)
From Verif Require Import Tactics SplMath DfsPrecise SqrtFacts DfsFacts FixedFacts.

(** C14.  Rounding down returns the greatest [r] with r*r <= x. *)
Theorem C14_integer_sqrt_down : forall x, is_u64 x ->
  exists r, sqrt_babylonian x false = Val r /\ 0 <= r /\
            forall n, 0 <= n -> (n * n <= x <-> n <= r).
Proof. exact babylonian_down. Qed.
Print Assumptions C14_integer_sqrt_down.

(** C14.  Rounding up returns the least [r] with r*r >= x. *)
Theorem C14_integer_sqrt_up : forall x, is_u64 x ->
  exists r, sqrt_babylonian x true = Val r /\ 0 <= r /\
            forall n, 0 <= n -> (x <= n * n <-> r <= n).
Proof. exact babylonian_up. Qed.
Print Assumptions C14_integer_sqrt_up.

Example C14_case : is_u64 u64_max /\
  sqrt_babylonian u64_max false = Val 4294967295 /\ sqrt_babylonian u64_max true = Val 4294967296 /\
  sqrt_babylonian 0 true = Val 0.
Proof. vm_compute. repeat split; congruence. Qed.

(** C15.  A raw value [x] stands for x / 10^18, so [r] stands for the exact root
    iff r * r = x * 10^18.  Rounded down: never above the root; below it by at
    most a relative error of 2^-31 and one unit of the last place. *)
Theorem C15_fixed_sqrt_down : forall x r, is_u256 x -> dfs_sqrt_u64 x false = Val r ->
  0 <= r /\ r * r <= x * ONE /\
  x * ONE * (2 ^ 31 * 2 ^ 31) < (r + 1) * (2 ^ 31 + 1) * ((r + 1) * (2 ^ 31 + 1)).
Proof. exact dfs_sqrt_down_spec. Qed.
Print Assumptions C15_fixed_sqrt_down.

(** C15.  Rounded up: never below the root, above it by at most a relative error
    of 1 / (2^31 - 1) and one unit of the last place. *)
Theorem C15_fixed_sqrt_up : forall x r, is_u256 x -> dfs_sqrt_u64 x true = Val r ->
  0 <= r /\ x * ONE <= r * r /\ (x = 0 -> r = 0) /\
  (0 < x -> 1 <= r /\
    (r - 1) * (2 ^ 31 - 1) * ((r - 1) * (2 ^ 31 - 1)) < x * ONE * (2 ^ 31 * 2 ^ 31)).
Proof. exact dfs_sqrt_up_spec. Qed.
Print Assumptions C15_fixed_sqrt_up.

(** C15.  Both are monotone. *)
Theorem C15_fixed_sqrt_monotone : forall x y up r r', is_u256 x -> is_u256 y -> x <= y ->
  dfs_sqrt_u64 x up = Val r -> dfs_sqrt_u64 y up = Val r' -> r <= r'.
Proof. exact dfs_sqrt_mono. Qed.
Print Assumptions C15_fixed_sqrt_monotone.

(** C15.  The root is always computed, except that rounding up panics exactly
    when the leading 64 bits (at an even exponent) are all ones and something
    non-zero is cut off. *)
Theorem C15_fixed_sqrt_panic_iff : forall x up, is_u256 x ->
  dfs_sqrt_u64 x up <> Non /\
  (dfs_sqrt_u64 x up = Panic <->
   up = true /\ exists k, 1 <= k /\ (2 ^ 64 - 1) * 4 ^ k < x < 2 ^ 64 * 4 ^ k).
Proof. exact dfs_sqrt_panic_iff. Qed.
Print Assumptions C15_fixed_sqrt_panic_iff.

(** 2.0 and a large value, both modes; the least value that panics. *)
Example C15_case :
  is_u256 (2 * ONE) /\
  dfs_sqrt_u64 (2 * ONE) false = Val 1414213562000000000 /\
  dfs_sqrt_u64 (2 * ONE) true = Val 1414213562500000000 /\
  dfs_sqrt_u64 u256_max false = Val (4294967295 * SQRT_ONE * 2 ^ 96) /\
  (2 ^ 64 - 1) * 4 ^ 1 < 4 * (2 ^ 64 - 1) + 1 < 2 ^ 64 * 4 ^ 1 /\
  dfs_sqrt_u64 (4 * (2 ^ 64 - 1) + 1) true = Panic.
Proof. vm_compute. repeat split; congruence. Qed.

(** C16.  u128 -> fixed point -> u128 is the identity. *)
Theorem C16_convert_roundtrip : forall v, is_u128 v ->
  exists x, dfs_new v = Val x /\ x = v * ONE /\ dfs_to_imprecise x = Val v.
Proof. exact dfs_roundtrip. Qed.
Print Assumptions C16_convert_roundtrip.

(** C16.  Converting back rounds half up, succeeds exactly when the rounded
    value is a u128, and never panics. *)
Theorem C16_to_imprecise_rounds_half_up : forall x n, is_u256 x ->
  dfs_to_imprecise x = Val n <-> is_u128 n /\ 2 * n * ONE - ONE <= 2 * x < 2 * n * ONE + ONE.
Proof. exact dfs_to_imprecise_spec. Qed.
Print Assumptions C16_to_imprecise_rounds_half_up.

Theorem C16_to_imprecise_no_panic : forall x, dfs_to_imprecise x <> Panic.
Proof. exact dfs_to_imprecise_no_panic. Qed.
Print Assumptions C16_to_imprecise_no_panic.

Theorem C16_floor : forall x, is_u256 x ->
  exists n, dfs_floor x = Val (n * ONE) /\ n * ONE <= x < (n + 1) * ONE.
Proof. exact dfs_floor_spec. Qed.
Print Assumptions C16_floor.

Theorem C16_ceiling : forall x, is_u256 x ->
  (x + (ONE - 1) <= u256_max ->
   exists n, dfs_ceiling x = Val (n * ONE) /\ (n - 1) * ONE < x <= n * ONE) /\
  (u256_max < x + (ONE - 1) -> dfs_ceiling x = Non).
Proof. exact dfs_ceiling_spec. Qed.
Print Assumptions C16_ceiling.

Example C16_case :
  is_u128 u128_max /\ dfs_to_imprecise (3 * ONE + HALF) = Val 4 /\ dfs_to_imprecise u256_max = Non /\
  dfs_floor (3 * ONE + HALF) = Val (3 * ONE) /\ dfs_ceiling (3 * ONE + HALF) = Val (4 * ONE) /\
  dfs_ceiling u256_max = Non.
Proof. vm_compute. repeat split; congruence. Qed.

(** C17.  Multiplication is rounded to the nearest unit of the last place. *)
Theorem C17_mul_nearest : forall x y z, 0 <= x * y <= u256_max -> dfs_mul x y = Val z ->
  2 * z * ONE - ONE <= 2 * (x * y) < 2 * z * ONE + ONE.
Proof. exact dfs_mul_normal. Qed.
Print Assumptions C17_mul_nearest.

Theorem C17_mul_defined : forall x y, 0 <= x * y -> x * y + HALF <= u256_max ->
  dfs_mul x y = Val ((x * y + HALF) / ONE).
Proof. exact dfs_mul_defined. Qed.
Print Assumptions C17_mul_defined.

(** C17.  On overflow the coarser result never exceeds the true product and
    misses less than [Z.min x y] whole units of it. *)
Theorem C17_mul_overflow : forall x y z,
  is_u256 x -> is_u256 y -> u256_max < x * y -> dfs_mul x y = Val z ->
  z * ONE <= x * y < z * ONE + Z.min x y * ONE.
Proof. exact dfs_mul_overflow. Qed.
Print Assumptions C17_mul_overflow.

Theorem C17_mul_whole_exact : forall x n, 0 <= x -> 0 <= n -> x * (n * ONE) + HALF <= u256_max ->
  dfs_mul x (n * ONE) = Val (x * n).
Proof. exact dfs_mul_whole. Qed.
Print Assumptions C17_mul_whole_exact.

(** C17.  Division rounds [x * ONE / y + HALF / y] down ... *)
Theorem C17_div_bounds : forall x y z, 0 < y -> 0 <= x * ONE <= u256_max -> dfs_div x y = Val z ->
  z * y <= x * ONE + HALF < (z + 1) * y.
Proof. exact dfs_div_normal. Qed.
Print Assumptions C17_div_bounds.

(** ... so for a divisor of at least 1.0 the error is below one unit ... *)
Theorem C17_div_error : forall x y z, ONE <= y -> 0 <= x * ONE <= u256_max -> dfs_div x y = Val z ->
  Z.abs (z * y - x * ONE) < y.
Proof. exact dfs_div_ge_one. Qed.
Print Assumptions C17_div_error.

(** ... and dividing by a whole number is the floor. *)
Theorem C17_div_whole_floor : forall x n, 0 <= x -> 0 < n -> x * ONE + HALF <= u256_max ->
  dfs_div x (n * ONE) = Val (x / n).
Proof. exact dfs_div_whole. Qed.
Print Assumptions C17_div_whole_floor.

Theorem C17_div_overflow : forall x y z,
  0 < y -> 0 <= x -> u256_max < x * ONE -> dfs_div x y = Val z ->
  z * y <= (x + HALF) * ONE < (z + ONE) * y.
Proof. exact dfs_div_overflow. Qed.
Print Assumptions C17_div_overflow.

Theorem C17_div_by_zero : forall x, dfs_div x 0 = Non.
Proof. exact dfs_div_zero. Qed.
Print Assumptions C17_div_by_zero.

Theorem C17_mul_no_panic : forall x y, dfs_mul x y <> Panic.
Proof. exact dfs_mul_no_panic. Qed.
Print Assumptions C17_mul_no_panic.

Theorem C17_div_no_panic : forall x y, dfs_div x y <> Panic.
Proof. exact dfs_div_no_panic. Qed.
Print Assumptions C17_div_no_panic.

Example C17_case :
  dfs_mul (3 * ONE + 1) HALF = Val (ONE + HALF + 1) /\          (* 3.0...01 * 0.5, tie rounds up *)
  dfs_div (2 * ONE) (3 * ONE) = Val 666666666666666666 /\       (* floor *)
  dfs_div 2 (3 * ONE - 1) = Val 0 /\
  u256_max < 2 ^ 200 * 2 ^ 90 /\ dfs_mul (2 ^ 200) (2 ^ 90) = Val (2 ^ 200 / ONE * 2 ^ 90) /\
  u256_max < 2 ^ 200 * ONE /\ dfs_div (2 ^ 200) ONE = Val ((2 ^ 200 + HALF) / ONE * ONE).
Proof. vm_compute. repeat split; congruence. Qed.

(** C18, refuted: 0.5 is converted to 1.5. *)
Theorem C18_to_spl_refuted : exists x y, is_u256 x /\ dfs_to_spl x = Val y /\
  1000000 <= Z.abs (y * 1000000 - x).
Proof. exists HALF, 1500000000000. vm_compute. repeat split; congruence. Qed.
Print Assumptions C18_to_spl_refuted.

(** C18, what the code does compute: the value truncated to 12 decimals, plus one
    whole unit whenever the fractional part is at least one half.  Hence the
    conversion is faithful exactly for fractional parts below one half. *)
Theorem C18_to_spl_partial : forall x y, is_u256 x -> dfs_to_spl x = Val y ->
  let excess := if HALF <=? x mod ONE then ONE else 0 in
  y * 1000000 <= x + excess < (y + 1) * 1000000.
Proof. exact dfs_to_spl_value. Qed.
Print Assumptions C18_to_spl_partial.

Example C18_case : is_u256 (7 * ONE + 123456789) /\
  dfs_to_spl (7 * ONE + 123456789) = Val 7000000000123 /\
  dfs_to_spl (7 * ONE + HALF) = Val 8500000000000.
Proof. vm_compute. repeat split; congruence. Qed.
