(** Both fixed-point types on their whole range (C74). *)
From Verif Require Import Ints Tactics SplMath DfsPrecise ConstantPrice Spec DfsFacts.

Lemma spl_pos : 0 < SPL_ONE. Proof. reflexivity. Qed.
Lemma spl_half : 2 * SPL_HALF = SPL_ONE. Proof. reflexivity. Qed.

Lemma spl_mul_error x y z : is_u256 x -> is_u256 y -> spl_mul x y = Val z ->
  (x * y <= u256_max -> 2 * z * SPL_ONE - SPL_ONE <= 2 * (x * y) < 2 * z * SPL_ONE + SPL_ONE) /\
  (u256_max < x * y -> z * SPL_ONE <= x * y < z * SPL_ONE + Z.min x y * SPL_ONE).
Proof.
  intros Hx Hy H. unfold is_u256 in *. split; intros Hb; unfold spl_mul in H.
  - rewrite mul_in_eq in H by lia. inv. pose proof (div_bounds (x * y + SPL_HALF) SPL_ONE spl_pos). pose proof spl_half. lia.
  - rewrite mul_in_over in H by lia. destruct (Z.leb_spec y x) as [Hle | Hlt].
    + inv. rewrite Z.min_r by lia. pose proof (div_bounds x SPL_ONE spl_pos) as D.
      unfold u256_max in *. set (q := x / SPL_ONE) in *. nia.
    + inv. rewrite Z.min_l by lia. pose proof (div_bounds y SPL_ONE spl_pos) as D.
      unfold u256_max in *. set (q := y / SPL_ONE) in *. nia.
Qed.

Lemma spl_div_error x y z : is_u256 x -> 0 < y -> spl_div x y = Val z ->
  (x * SPL_ONE <= u256_max -> z * y <= x * SPL_ONE + SPL_HALF < (z + 1) * y) /\
  (u256_max < x * SPL_ONE -> z * y <= (x + SPL_HALF) * SPL_ONE < (z + SPL_ONE) * y).
Proof.
  intros Hx Hy H. unfold is_u256 in *. unfold spl_div in H. destruct (Z.eqb_spec y 0); [lia |]. split; intros Hb.
  - rewrite mul_in_eq in H by lia. inv. apply div_bounds. lia.
  - rewrite mul_in_over in H by lia. inv.
    pose proof (div_bounds (x + SPL_HALF) y Hy). pose proof spl_pos. set (q := (x + SPL_HALF) / y) in *. nia.
Qed.

Ltac val_iff := split; [intros (? & ?); try discriminate | intros ?; try (exfalso; lia); try (eexists; reflexivity)]; try lia.

Lemma spl_mul_defined x y : (exists z, spl_mul x y = Val z) <->
  x * y + SPL_HALF <= u256_max \/ u256_max < x * y /\ Z.max x y / SPL_ONE * Z.min x y <= u256_max.
Proof.
  unfold spl_mul, mul_in, add_in, cdiv. change (SPL_ONE =? 0) with false. cbv iota. cbn [obind].
  assert (0 < SPL_HALF) by reflexivity.
  destruct (Z.leb_spec (x * y) u256_max).
  - destruct (Z.leb_spec (x * y + SPL_HALF) u256_max); cbn [obind]; val_iff.
  - destruct (Z.leb_spec y x).
    + rewrite Z.max_l, Z.min_r by lia. destruct (Z.leb_spec (x / SPL_ONE * y) u256_max); val_iff.
    + rewrite Z.max_r, Z.min_l by lia. destruct (Z.leb_spec (y / SPL_ONE * x) u256_max); val_iff.
Qed.

Lemma spl_div_defined x y : 0 < y -> (exists z, spl_div x y = Val z) <->
  x * SPL_ONE + SPL_HALF <= u256_max \/
  u256_max < x * SPL_ONE /\ x + SPL_HALF <= u256_max /\ (x + SPL_HALF) / y * SPL_ONE <= u256_max.
Proof.
  intros Hy. unfold spl_div, mul_in, add_in, cdiv. rewrite (proj2 (Z.eqb_neq y 0)) by lia. cbv iota.
  assert (0 < SPL_HALF) by reflexivity.
  destruct (Z.leb_spec (x * SPL_ONE) u256_max).
  - destruct (Z.leb_spec (x * SPL_ONE + SPL_HALF) u256_max); cbn [obind]; val_iff.
  - destruct (Z.leb_spec (x + SPL_HALF) u256_max); cbn [obind]; [| val_iff].
    destruct (Z.leb_spec ((x + SPL_HALF) / y * SPL_ONE) u256_max); val_iff.
Qed.

Lemma dfs_mul_defined_iff x y : (exists z, dfs_mul x y = Val z) <->
  x * y + HALF <= u256_max \/ u256_max < x * y /\ Z.max x y / ONE * Z.min x y <= u256_max.
Proof.
  unfold dfs_mul, mul_in, add_in, cdiv. change (ONE =? 0) with false. cbv iota. cbn [obind].
  assert (0 < HALF) by reflexivity.
  destruct (Z.leb_spec (x * y) u256_max).
  - destruct (Z.leb_spec (x * y + HALF) u256_max); cbn [obind]; val_iff.
  - destruct (Z.leb_spec y x).
    + rewrite Z.max_l, Z.min_r by lia. destruct (Z.leb_spec (x / ONE * y) u256_max); val_iff.
    + rewrite Z.max_r, Z.min_l by lia. destruct (Z.leb_spec (y / ONE * x) u256_max); val_iff.
Qed.

Lemma dfs_div_defined_iff x y : 0 < y -> (exists z, dfs_div x y = Val z) <->
  x * ONE + HALF <= u256_max \/
  u256_max < x * ONE /\ x + HALF <= u256_max /\ (x + HALF) / y * ONE <= u256_max.
Proof.
  intros Hy. unfold dfs_div, mul_in, add_in, cdiv. rewrite (proj2 (Z.eqb_neq y 0)) by lia. cbv iota.
  assert (0 < HALF) by reflexivity.
  destruct (Z.leb_spec (x * ONE) u256_max).
  - destruct (Z.leb_spec (x * ONE + HALF) u256_max); cbn [obind]; val_iff.
  - destruct (Z.leb_spec (x + HALF) u256_max); cbn [obind]; [| val_iff].
    destruct (Z.leb_spec ((x + HALF) / y * ONE) u256_max); val_iff.
Qed.

Lemma almost_eq_iff x y p : dfs_almost_eq x y p = true <-> Z.abs (x - y) < p.
Proof. unfold dfs_almost_eq, dfs_unsigned_sub. destruct (Z.leb_spec y x); cbn [fst]; rewrite Z.ltb_lt; lia. Qed.

Lemma unsigned_sub_spec x y d neg : dfs_unsigned_sub x y = (d, neg) <->
  0 <= d /\ x - y = (if neg then - d else d) /\ (neg = true -> 0 < d).
Proof.
  unfold dfs_unsigned_sub. destruct (Z.leb_spec y x); split.
  - intros [= <- <-]. repeat split; try lia; discriminate.
  - intros (H0 & H1 & H2). destruct neg; [specialize (H2 eq_refl); lia | f_equal; lia].
  - intros [= <- <-]. repeat split; lia.
  - intros (H0 & H1 & H2). destruct neg; [f_equal; lia | lia].
Qed.

Lemma cprice_value_iff p a b v : is_u128 a -> is_u128 b -> is_u64 p ->
  cprice_normalized_value p a b = Val v <-> pool_value p a b <= u128_max /\ v = pool_value p a b / 2 * 10 ^ 12.
Proof.
  intros Ha Hb Hp. unfold is_u128, is_u64 in *. unfold cprice_normalized_value, pool_value.
  assert (0 <= b * p) by nia.
  unfold mul_in at 1. destruct (Z.leb_spec (b * p) u128_max) as [L | L]; cbn [obind].
  2:{ split; [discriminate | lia]. }
  unfold sat_sub. destruct (Z.ltb_spec (u128_max - u64_max) (Z.max 0 (b * p - u64_max))) as [B | _].
  { exfalso. unfold u128_max, u64_max in *. lia. }
  unfold add_in. destruct (Z.leb_spec (a + b * p) u128_max) as [M | M]; cbn [obind].
  2:{ split; [discriminate | nia]. }
  change (cdiv (a + b * p) 2) with (Val ((a + b * p) / 2)). cbn [obind]. unfold spl_new.
  pose proof (div_bounds (a + b * p) 2 ltac:(lia)).
  assert ((a + b * p) / 2 * SPL_ONE <= u256_max).
  { unfold SPL_ONE, u128_max, u256_max in *. set (q := (a + b * p) / 2) in *. lia. }
  rewrite mul_in_eq by exact H1. replace (a + b * p) with (a + p * b) in * by ring.
  split; [intros [= <-]; split; [lia | reflexivity] | intros (_ & ->); reflexivity].
Qed.

Lemma cprice_halving_dead : exists p a b, is_u64 p /\ is_u128 a /\ is_u128 b /\
  b * p <= u128_max /\ a / 2 + b * p / 2 <= u128_max /\ cprice_normalized_value p a b = Non.
Proof. exists 1, 1, u128_max. vm_compute. repeat split; congruence. Qed.
