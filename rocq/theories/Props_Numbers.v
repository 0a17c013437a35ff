(** Fixed-point arithmetic and the constant-price value on the whole range: C74, C75. *)
From Verif Require Import Ints SplMath DfsPrecise ConstantPrice Spec SplFacts.

(** C74.  Multiplication of the 12-decimal type: the nearest unit, or on overflow
    of the product a coarser result that never exceeds it. *)
Theorem C74_spl_mul : forall x y z, is_u256 x -> is_u256 y -> spl_mul x y = Val z ->
  (x * y <= u256_max -> 2 * z * SPL_ONE - SPL_ONE <= 2 * (x * y) < 2 * z * SPL_ONE + SPL_ONE) /\
  (u256_max < x * y -> z * SPL_ONE <= x * y < z * SPL_ONE + Z.min x y * SPL_ONE).
Proof. exact spl_mul_error. Qed.
Print Assumptions C74_spl_mul.

Theorem C74_spl_div : forall x y z, is_u256 x -> 0 < y -> spl_div x y = Val z ->
  (x * SPL_ONE <= u256_max -> z * y <= x * SPL_ONE + SPL_HALF < (z + 1) * y) /\
  (u256_max < x * SPL_ONE -> z * y <= (x + SPL_HALF) * SPL_ONE < (z + SPL_ONE) * y).
Proof. exact spl_div_error. Qed.
Print Assumptions C74_spl_div.

(** C74.  Exactly when there is a result, for both types. *)
Theorem C74_spl_mul_defined : forall x y, (exists z, spl_mul x y = Val z) <->
  x * y + SPL_HALF <= u256_max \/ u256_max < x * y /\ Z.max x y / SPL_ONE * Z.min x y <= u256_max.
Proof. exact spl_mul_defined. Qed.
Print Assumptions C74_spl_mul_defined.

Theorem C74_spl_div_defined : forall x y, 0 < y -> (exists z, spl_div x y = Val z) <->
  x * SPL_ONE + SPL_HALF <= u256_max \/
  u256_max < x * SPL_ONE /\ x + SPL_HALF <= u256_max /\ (x + SPL_HALF) / y * SPL_ONE <= u256_max.
Proof. exact spl_div_defined. Qed.
Print Assumptions C74_spl_div_defined.

Theorem C74_dfs_mul_defined : forall x y, (exists z, dfs_mul x y = Val z) <->
  x * y + HALF <= u256_max \/ u256_max < x * y /\ Z.max x y / ONE * Z.min x y <= u256_max.
Proof. exact dfs_mul_defined_iff. Qed.
Print Assumptions C74_dfs_mul_defined.

Theorem C74_dfs_div_defined : forall x y, 0 < y -> (exists z, dfs_div x y = Val z) <->
  x * ONE + HALF <= u256_max \/
  u256_max < x * ONE /\ x + HALF <= u256_max /\ (x + HALF) / y * ONE <= u256_max.
Proof. exact dfs_div_defined_iff. Qed.
Print Assumptions C74_dfs_div_defined.

(** C74.  Differences carry their sign, and closeness is strict. *)
Theorem C74_unsigned_sub : forall x y d neg, dfs_unsigned_sub x y = (d, neg) <->
  0 <= d /\ x - y = (if neg then - d else d) /\ (neg = true -> 0 < d).
Proof. exact unsigned_sub_spec. Qed.
Print Assumptions C74_unsigned_sub.

Theorem C74_almost_eq : forall x y p, dfs_almost_eq x y p = true <-> Z.abs (x - y) < p.
Proof. exact almost_eq_iff. Qed.
Print Assumptions C74_almost_eq.

(** A product just below the limit has no result, one just above has. *)
Example C74_case :
  spl_mul u256_max 1 = Non /\ spl_mul (2 ^ 255) 2 = Val (2 ^ 255 / SPL_ONE * 2) /\
  spl_div (u256_max / SPL_ONE) 1 = Val (u256_max / SPL_ONE * SPL_ONE + SPL_HALF) /\ spl_div (2 ^ 250) 1 = Non /\
  spl_div (2 ^ 250) (2 ^ 50) = Val ((2 ^ 250 + SPL_HALF) / 2 ^ 50 * SPL_ONE) /\
  dfs_almost_eq 7 10 3 = false /\ dfs_almost_eq 7 10 4 = true.
Proof. vm_compute. repeat split; reflexivity. Qed.

(** C75.  The value of a constant-price pool is available whenever it fits 128
    bits ("special logic in case we're close to the limits, avoid overflowing u128",
    constant_price.rs 219-226).  False: the special case is never taken ... *)
Theorem C75_value_near_limit_refuted : exists p a b, is_u64 p /\ is_u128 a /\ is_u128 b /\
  b * p <= u128_max /\ a / 2 + b * p / 2 <= u128_max /\ cprice_normalized_value p a b = Non.
Proof. exact cprice_halving_dead. Qed.
Print Assumptions C75_value_near_limit_refuted.

(** ... so there is a value exactly when the undivided sum fits, and it is the
    half of that sum.  Amounts of 64 bits, which is what vaults hold, always do. *)
Theorem C75_value_partial : forall p a b v, is_u128 a -> is_u128 b -> is_u64 p ->
  cprice_normalized_value p a b = Val v <-> pool_value p a b <= u128_max /\ v = pool_value p a b / 2 * 10 ^ 12.
Proof. exact cprice_value_iff. Qed.
Print Assumptions C75_value_partial.

Example C75_case : cprice_normalized_value 3 7 (2 ^ 126) = Val ((3 * 2 ^ 126 + 7) / 2 * 10 ^ 12) /\
  cprice_normalized_value u64_max u64_max (2 ^ 64) = Val (2 ^ 63 * (2 ^ 64 - 1) * 10 ^ 12 + (2 ^ 63 - 1) * 10 ^ 12) /\
  cprice_normalized_value u64_max (2 ^ 64) (2 ^ 64) = Non.
Proof. vm_compute. repeat split; reflexivity. Qed.
