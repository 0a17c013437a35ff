(** Facts about the fixed-point type (dfs_precise_number.rs). *)
From Verif Require Import Tactics SplMath DfsPrecise SqrtFacts.

(** Quotient rounded up. *)
Definition cdivup (a b : Z) : Z := - ((- a) / b).

Lemma cdivup_spec a b : 0 < b -> a <= cdivup a b * b < a + b.
Proof.
  intros Hb. unfold cdivup.
  pose proof (Z.div_mod (- a) b ltac:(lia)). pose proof (Z.mod_pos_bound (- a) b Hb). nia.
Qed.

Lemma cdivup_unique a b q : 0 < b -> a <= q * b < a + b -> q = cdivup a b.
Proof. intros Hb Hq. pose proof (cdivup_spec a b Hb). nia. Qed.

Lemma cdivup_mono a a' b : 0 < b -> a <= a' -> cdivup a b <= cdivup a' b.
Proof. intros Hb Ha. unfold cdivup. assert (- a' / b <= - a / b) by (apply Z.div_le_mono; lia). lia. Qed.

Lemma cdivup_exact a b : 0 < b -> cdivup (a * b) b = a.
Proof. intros Hb. symmetry. apply cdivup_unique; lia. Qed.

Lemma cdivup_floor a b : 0 < b -> cdivup a b = if a / b * b <? a then a / b + 1 else a / b.
Proof.
  intros Hb. symmetry. apply cdivup_unique; [lia |].
  pose proof (Z.div_mod a b ltac:(lia)). pose proof (Z.mod_pos_bound a b Hb).
  destruct (Z.ltb_spec (a / b * b) a); lia.
Qed.

Lemma ONE_pos : 0 < ONE. Proof. reflexivity. Qed.
Lemma HALF_ONE : 2 * HALF = ONE. Proof. reflexivity. Qed.

(** ** Bit length *)
Lemma bits_spec x : 0 < x -> 2 ^ (bits x - 1) <= x < 2 ^ bits x /\ 1 <= bits x.
Proof.
  intros Hx. unfold bits. destruct (Z.eqb_spec x 0); [lia |].
  pose proof (Z.log2_spec x Hx). pose proof (Z.log2_nonneg x).
  replace (Z.log2 x + 1 - 1) with (Z.log2 x) by lia.
  replace (Z.log2 x + 1) with (Z.succ (Z.log2 x)) by lia. lia.
Qed.

Lemma bits_le x n : 0 <= x -> 0 <= n -> (bits x <= n <-> x < 2 ^ n).
Proof.
  intros Hx Hn. destruct (Z.eq_dec x 0) as [-> | Hx0].
  - cbn. pose proof (Z.pow_pos_nonneg 2 n ltac:(lia) Hn). lia.
  - pose proof (bits_spec x ltac:(lia)) as [[H1 H2] H3]. split; intros H.
    + pose proof (Z.pow_le_mono_r 2 (bits x) n ltac:(lia) H). lia.
    + destruct (Z.le_gt_cases (bits x) n) as [| Hgt]; [assumption |].
      pose proof (Z.pow_le_mono_r 2 n (bits x - 1) ltac:(lia) ltac:(lia)). lia.
Qed.

Lemma bits_nonneg x : 0 <= x -> 0 <= bits x.
Proof. intros H. unfold bits. destruct (_ =? _); [lia |]. pose proof (Z.log2_nonneg x). lia. Qed.

(** ** Conversions *)
Lemma dfs_new_val v : v * ONE <= u256_max -> dfs_new v = Val (v * ONE).
Proof. apply mul_in_eq. Qed.

(** ** Multiplication and division by whole numbers *)
Lemma dfs_mul_whole x n : 0 <= x -> 0 <= n -> x * (n * ONE) + HALF <= u256_max ->
  dfs_mul x (n * ONE) = Val (x * n).
Proof.
  intros Hx Hn Hb. unfold dfs_mul. assert (0 <= HALF) by (vm_compute; congruence).
  rewrite mul_in_eq by lia. rewrite add_in_eq by lia. cbn [obind].
  rewrite cdiv_eq by (vm_compute; congruence). f_equal.
  symmetry. apply Z.div_unique with (r := HALF); unfold HALF, ONE; lia.
Qed.

Lemma dfs_mul_whole_l x n : 0 <= x -> 0 <= n -> x * (n * ONE) + HALF <= u256_max ->
  dfs_mul (n * ONE) x = Val (x * n).
Proof.
  intros Hx Hn Hb. rewrite <- (dfs_mul_whole x n) by assumption.
  unfold dfs_mul. assert (0 <= HALF) by (vm_compute; congruence).
  rewrite !mul_in_eq by lia. rewrite (Z.mul_comm (n * ONE) x). reflexivity.
Qed.

Lemma dfs_div_whole x n : 0 <= x -> 0 < n -> x * ONE + HALF <= u256_max ->
  dfs_div x (n * ONE) = Val (x / n).
Proof.
  intros Hx Hn Hb. unfold dfs_div. assert (0 <= HALF) by (vm_compute; congruence).
  destruct (Z.eqb_spec (n * ONE) 0) as [He | _]; [unfold ONE in He; lia |].
  rewrite mul_in_eq by lia. rewrite add_in_eq by lia. cbn [obind].
  rewrite cdiv_eq by (unfold ONE; lia). f_equal.
  pose proof (Z.div_mod x n ltac:(lia)) as Hd. pose proof (Z.mod_pos_bound x n Hn) as Hm.
  symmetry. apply Z.div_unique with (r := x mod n * ONE + HALF).
  - left. unfold HALF, ONE. lia.
  - rewrite Hd at 1. unfold HALF, ONE. ring.
Qed.

(** ** The fixed-point square root in closed form *)
Lemma pow_even k : 0 <= k -> 2 ^ (k * 2) = 2 ^ k * 2 ^ k.
Proof. intros Hk. replace (k * 2) with (k + k) by lia. apply Z.pow_add_r; lia. Qed.

Definition sqrt_small_exp (x : Z) : Z := (64 - bits x) / 2.
Definition sqrt_large_exp (x : Z) : Z := (bits x - 63) / 2.

Lemma sqrt_small_exp_spec x : 0 <= x < 2 ^ 64 ->
  let k := sqrt_small_exp x in
  0 <= k <= 32 /\ x * (2 ^ k * 2 ^ k) < 2 ^ 64 /\ (0 < x -> k <= 31 /\ 2 ^ 62 <= x * (2 ^ k * 2 ^ k)).
Proof.
  intros Hx k. subst k. unfold sqrt_small_exp.
  assert (Hb : 0 <= bits x <= 64).
  { split; [apply bits_nonneg; lia | apply bits_le; lia]. }
  pose proof (Z.div_mod (64 - bits x) 2 ltac:(lia)) as Hd.
  pose proof (Z.mod_pos_bound (64 - bits x) 2 ltac:(lia)) as Hm.
  set (k := (64 - bits x) / 2) in *.
  assert (Hk : 0 <= k <= 32) by lia.
  split; [exact Hk |].
  pose proof (Z.pow_pos_nonneg 2 k ltac:(lia) ltac:(lia)) as Hp.
  destruct (Z.eq_dec x 0) as [-> | Hx0].
  { split; [rewrite Z.mul_0_l; reflexivity | lia]. }
  pose proof (bits_spec x ltac:(lia)) as [[H1 H2] H3].
  rewrite <- pow_even by lia.
  assert (E : 0 < 2 ^ (k * 2)) by (apply Z.pow_pos_nonneg; lia).
  split; [| intros _; split; [lia |]].
  - apply Z.lt_le_trans with (2 ^ bits x * 2 ^ (k * 2)); [nia |].
    rewrite <- Z.pow_add_r by lia. apply Z.pow_le_mono_r; lia.
  - apply Z.le_trans with (2 ^ (bits x - 1) * 2 ^ (k * 2)); [| nia].
    rewrite <- Z.pow_add_r by lia. apply Z.pow_le_mono_r; lia.
Qed.

Lemma sqrt_large_exp_spec x : 2 ^ 64 <= x <= u256_max ->
  let k := sqrt_large_exp x in
  1 <= k <= 96 /\ 2 ^ 62 <= x / (2 ^ k * 2 ^ k) < 2 ^ 64.
Proof.
  intros Hx k. subst k. unfold sqrt_large_exp.
  pose proof (bits_spec x ltac:(lia)) as [[H1 H2] H3].
  assert (Hb : 65 <= bits x).
  { destruct (Z.le_gt_cases 65 (bits x)); [assumption |].
    assert (x < 2 ^ 64) by (apply bits_le; lia). lia. }
  assert (Hb2 : bits x <= 256) by (apply bits_le; [lia | lia | unfold u256_max in *; lia]).
  pose proof (Z.div_mod (bits x - 63) 2 ltac:(lia)) as Hd.
  pose proof (Z.mod_pos_bound (bits x - 63) 2 ltac:(lia)) as Hm.
  set (k := (bits x - 63) / 2) in *.
  split; [lia |]. rewrite <- pow_even by lia.
  assert (E : 0 < 2 ^ (k * 2)) by (apply Z.pow_pos_nonneg; lia).
  split.
  - apply Z.div_le_lower_bound; [exact E |].
    rewrite <- Z.pow_add_r by lia.
    apply Z.le_trans with (2 ^ (bits x - 1)); [apply Z.pow_le_mono_r; lia | lia].
  - apply Z.div_lt_upper_bound; [exact E |].
    rewrite <- Z.pow_add_r by lia.
    apply Z.lt_le_trans with (2 ^ bits x); [lia | apply Z.pow_le_mono_r; lia].
Qed.

Lemma pow2_le_96 k : 0 <= k <= 96 -> 1 <= 2 ^ k <= 2 ^ 96.
Proof.
  intros Hk. split; [| apply Z.pow_le_mono_r; lia].
  change 1 with (2 ^ 0). apply Z.pow_le_mono_r; lia.
Qed.

Lemma sqrt_bound y n : 0 <= y < n * n -> 0 <= n -> 0 <= Z.sqrt y < n.
Proof. intros Hy Hn. split; [apply Z.sqrt_nonneg | apply Z.sqrt_lt_square; lia]. Qed.

Lemma sqrt_up_bound y n : 0 <= y <= n * n -> 0 <= n -> 0 <= Z.sqrt_up y <= n.
Proof. intros Hy Hn. split; [apply Z.sqrt_up_nonneg | apply Z.sqrt_up_le_square; lia]. Qed.

Lemma sqrt_small_closed x up : 0 <= x < 2 ^ 64 ->
  let k := sqrt_small_exp x in
  dfs_sqrt_u64 x up =
    Val (if up then cdivup (Z.sqrt_up (x * (2 ^ k * 2 ^ k)) * SQRT_ONE) (2 ^ k)
         else Z.sqrt (x * (2 ^ k * 2 ^ k)) * SQRT_ONE / 2 ^ k).
Proof.
  intros Hx k. pose proof (sqrt_small_exp_spec x Hx) as (Hk & Hlt & _).
  fold k in Hk, Hlt. unfold dfs_sqrt_u64.
  assert (Hb : bits x <= 64) by (apply bits_le; lia).
  destruct (Z.leb_spec (bits x) 64) as [_ | ?]; [| lia].
  change ((64 - bits x) / 2) with k.
  replace (k * 2 / 2) with k by (rewrite Z.div_mul; lia).
  pose proof (pow2_le_96 k ltac:(lia)) as Hp.
  assert (Hp32 : 2 ^ k <= 2 ^ 32) by (apply Z.pow_le_mono_r; lia).
  rewrite dfs_new_val by (unfold ONE, u256_max; lia). cbn [obind].
  unfold shl256. rewrite pow_even by lia.
  rewrite Z.mod_small by (split; [nia | lia]).
  set (y := x * (2 ^ k * 2 ^ k)) in *.
  assert (Hy : 0 <= y < 2 ^ 64) by (subst y; split; [nia | lia]).
  unfold as_u64. destruct (Z.leb_spec y u64_max) as [_ | ?]; [| unfold u64_max in *; lia].
  cbn [obind]. rewrite babylonian_correct by (unfold is_u64, u64_max; lia). cbn [obind].
  set (s := if up then Z.sqrt_up y else Z.sqrt y).
  assert (Hs : 0 <= s <= 2 ^ 32).
  { subst s. destruct up; [apply sqrt_up_bound; lia |].
    pose proof (sqrt_bound y (2 ^ 32) ltac:(lia) ltac:(lia)). lia. }
  rewrite dfs_new_val by (vm_compute; congruence). cbn [obind].
  rewrite dfs_mul_whole by (unfold SQRT_ONE, ONE, HALF, u256_max; lia). cbn [obind].
  rewrite dfs_div_whole by (unfold SQRT_ONE, ONE, HALF, u256_max; lia). cbn [obind].
  destruct up; [| reflexivity].
  assert (Hq : 0 <= s * SQRT_ONE / 2 ^ k <= s * SQRT_ONE).
  { split; [apply Z.div_pos; unfold SQRT_ONE; lia |].
    apply Z.div_le_upper_bound; unfold SQRT_ONE; nia. }
  rewrite dfs_mul_whole; cycle 1.
  { lia. } { lia. } { unfold SQRT_ONE, ONE, HALF, u256_max in *; nia. }
  cbn [obind]. unfold dfs_less_than. rewrite cdivup_floor by lia.
  change (Z.sqrt_up y) with s.
  destruct (Z.ltb_spec (s * SQRT_ONE / 2 ^ k * 2 ^ k) (s * SQRT_ONE)); [| reflexivity].
  unfold dfs_add. rewrite add_in_eq; [reflexivity | unfold SQRT_ONE, u256_max in *; lia].
Qed.

(** The rounded-up mantissa of a large value. *)
Definition sqrt_large_mantissa (x : Z) (up : bool) : Z :=
  let k := sqrt_large_exp x in
  if up then cdivup x (2 ^ k * 2 ^ k) else x / (2 ^ k * 2 ^ k).

Lemma sqrt_large_closed x up : 2 ^ 64 <= x <= u256_max ->
  let k := sqrt_large_exp x in
  let u := sqrt_large_mantissa x up in
  dfs_sqrt_u64 x up =
    if u <=? u64_max
    then Val ((if up then Z.sqrt_up u else Z.sqrt u) * SQRT_ONE * 2 ^ k)
    else Panic.
Proof.
  intros Hx k u. pose proof (sqrt_large_exp_spec x Hx) as (Hk & Hu1 & Hu2).
  fold k in Hk, Hu1, Hu2. unfold dfs_sqrt_u64.
  assert (Hb : 65 <= bits x).
  { destruct (Z.le_gt_cases 65 (bits x)); [assumption |].
    assert (x < 2 ^ 64) by (apply bits_le; lia). lia. }
  destruct (Z.leb_spec (bits x) 64) as [? | _]; [lia |].
  replace ((bits x - 64 + 1) / 2) with k by (subst k; unfold sqrt_large_exp; f_equal; lia).
  replace (k * 2 / 2) with k by (rewrite Z.div_mul; lia).
  pose proof (pow2_le_96 k ltac:(lia)) as Hp.
  rewrite dfs_new_val by (unfold ONE, u256_max; lia). cbn [obind].
  unfold shr256, shl256. rewrite pow_even by lia.
  set (v := x / (2 ^ k * 2 ^ k)) in *.
  assert (Hpp : 0 < 2 ^ k * 2 ^ k) by nia.
  assert (Hvx : v * (2 ^ k * 2 ^ k) <= x).
  { subst v. rewrite Z.mul_comm. apply Z.mul_div_le. lia. }
  rewrite Z.mod_small by (split; [nia | unfold u256_max in *; lia]).
  assert (Hpad : (if up && (v * (2 ^ k * 2 ^ k) <? x)
                  then add_in u256_max v 1 else Val v) = Val u).
  { subst u. unfold sqrt_large_mantissa. fold k. fold v. destruct up; cbn [andb]; [| reflexivity].
    rewrite cdivup_floor by lia. fold v.
    destruct (v * (2 ^ k * 2 ^ k) <? x); [| reflexivity].
    apply add_in_eq. unfold u256_max. lia. }
  rewrite Hpad. cbn [obind].
  assert (Hu : 0 <= u).
  { subst u. unfold sqrt_large_mantissa. fold k. destruct up; [| fold v; lia].
    rewrite cdivup_floor by lia. fold v. destruct (_ <? _); lia. }
  unfold as_u64. destruct (Z.leb_spec u u64_max) as [Hle |]; [| reflexivity].
  cbn [obind]. rewrite babylonian_correct by (unfold is_u64; lia). cbn [obind].
  set (s := if up then Z.sqrt_up u else Z.sqrt u).
  assert (Hs : 0 <= s <= 2 ^ 32).
  { subst s. unfold u64_max in *. destruct up; [apply sqrt_up_bound; lia |].
    pose proof (sqrt_bound u (2 ^ 32) ltac:(lia) ltac:(lia)). lia. }
  rewrite dfs_new_val by (vm_compute; congruence). cbn [obind].
  rewrite dfs_mul_whole by (unfold SQRT_ONE, ONE, HALF, u256_max; lia). cbn [obind].
  assert (Hs1 : s * SQRT_ONE <= 2 ^ 32 * 2 ^ 30) by (unfold SQRT_ONE; lia).
  rewrite dfs_mul_whole; [reflexivity | unfold SQRT_ONE; lia | lia |].
  unfold ONE, HALF, u256_max. nia.
Qed.

(** ** The fixed-point square root against the real root *)
Lemma SQRT_ONE_sq : SQRT_ONE * SQRT_ONE = ONE. Proof. reflexivity. Qed.

Lemma sq_le a b : 0 <= a -> a <= b -> a * a <= b * b.
Proof. intros. nia. Qed.
Lemma sq_lt a b : 0 <= a -> a < b -> a * a < b * b.
Proof. intros. nia. Qed.
Lemma sq_le_inv a b : 0 <= b -> a * a <= b * b -> a <= b.
Proof. intros. nia. Qed.
Lemma sq_lt_inv a b : 0 <= b -> a * a < b * b -> a < b.
Proof. intros. nia. Qed.

Lemma mantissa_sqrt_lo y : 2 ^ 62 <= y -> 2 ^ 31 <= Z.sqrt y.
Proof. intros H. apply Z.sqrt_le_square; lia. Qed.
Lemma mantissa_sqrt_up y : 2 ^ 62 <= y -> 2 ^ 31 <= Z.sqrt_up y.
Proof. intros H. pose proof (mantissa_sqrt_lo y H). pose proof (Z.le_sqrt_sqrt_up y). lia. Qed.

Lemma sqrt_up_lower y : 0 < y -> (Z.sqrt_up y - 1) * (Z.sqrt_up y - 1) < y <= Z.sqrt_up y * Z.sqrt_up y.
Proof. intros H. pose proof (Z.sqrt_up_spec y H). unfold Z.pred in *. lia. Qed.
Lemma sqrt_lower y : 0 <= y -> Z.sqrt y * Z.sqrt y <= y < (Z.sqrt y + 1) * (Z.sqrt y + 1).
Proof. intros H. pose proof (Z.sqrt_spec y H). unfold Z.succ in *. lia. Qed.

(** Scaling facts used four times below. *)
Lemma small_down_dir x p q s r : 0 < p -> 0 < q -> 0 <= s -> 0 <= r ->
  s * s <= x * (p * p) -> r * p <= s * q -> r * r <= x * (q * q).
Proof.
  intros Hp Hq Hs Hr H1 H2.
  assert (r * p * (r * p) <= s * q * (s * q)) by (apply sq_le; nia).
  assert (s * s * (q * q) <= x * (p * p) * (q * q)) by (apply Z.mul_le_mono_nonneg_r; nia).
  apply (Z.mul_le_mono_pos_r _ _ (p * p)); [nia |]. lia.
Qed.

Lemma small_up_dir x p q s r : 0 < p -> 0 < q -> 0 <= s -> 0 <= r ->
  x * (p * p) <= s * s -> s * q <= r * p -> x * (q * q) <= r * r.
Proof.
  intros Hp Hq Hs Hr H1 H2.
  assert (s * q * (s * q) <= r * p * (r * p)) by (apply sq_le; nia).
  assert (x * (p * p) * (q * q) <= s * s * (q * q)) by (apply Z.mul_le_mono_nonneg_r; nia).
  apply (Z.mul_le_mono_pos_r _ _ (p * p)); [nia |]. lia.
Qed.

Lemma small_down_err x p q s r B : 0 < p -> 0 < q -> 0 < B -> B <= s -> 0 <= r ->
  x * (p * p) < (s + 1) * (s + 1) -> s * q < (r + 1) * p ->
  x * (q * q) * (B * B) < ((r + 1) * (B + 1)) * ((r + 1) * (B + 1)).
Proof.
  intros Hp Hq HB Hs Hr H1 H2.
  apply (Z.mul_lt_mono_pos_r (p * p)); [nia |].
  assert (E1 : x * (p * p) * (q * q * (B * B)) < (s + 1) * (s + 1) * (q * q * (B * B)))
    by (apply Z.mul_lt_mono_pos_r; [nia | lia]).
  assert (E2 : (s + 1) * B * q <= s * q * (B + 1)) by nia.
  assert (E3 : s * q * (B + 1) <= (r + 1) * p * (B + 1)) by nia.
  assert (E4 : (s + 1) * B * q * ((s + 1) * B * q) <= (r + 1) * p * (B + 1) * ((r + 1) * p * (B + 1)))
    by (apply sq_le; [repeat apply Z.mul_nonneg_nonneg; lia | lia]).
  lia.
Qed.

Lemma small_up_err x p q s r B : 0 < p -> 0 < q -> 1 < B -> B <= s -> 1 <= r ->
  (s - 1) * (s - 1) < x * (p * p) -> (r - 1) * p < s * q ->
  ((r - 1) * (B - 1)) * ((r - 1) * (B - 1)) < x * (q * q) * (B * B).
Proof.
  intros Hp Hq HB Hs Hr H1 H2.
  apply (Z.mul_lt_mono_pos_r (p * p)); [nia |].
  assert (E1 : (s - 1) * (s - 1) * (q * q * (B * B)) < x * (p * p) * (q * q * (B * B)))
    by (apply Z.mul_lt_mono_pos_r; [nia | lia]).
  assert (E2 : s * q * (B - 1) <= (s - 1) * B * q) by nia.
  assert (E3 : (r - 1) * p * (B - 1) <= s * q * (B - 1)) by nia.
  assert (E4 : (r - 1) * p * (B - 1) * ((r - 1) * p * (B - 1)) <= (s - 1) * B * q * ((s - 1) * B * q))
    by (apply sq_le; [repeat apply Z.mul_nonneg_nonneg; lia | lia]).
  lia.
Qed.

Lemma large_down_err x p q s B : 0 < p -> 0 < q -> 0 < B -> B <= s ->
  x < (s + 1) * (s + 1) * (p * p) ->
  x * (q * q) * (B * B) < (s * q * p + 1) * (B + 1) * ((s * q * p + 1) * (B + 1)).
Proof.
  intros Hp Hq HB Hs H1.
  assert (E1 : x * (q * q * (B * B)) < (s + 1) * (s + 1) * (p * p) * (q * q * (B * B)))
    by (apply Z.mul_lt_mono_pos_r; [nia | lia]).
  assert (Hpq : 0 < p * q) by nia.
  assert (E2 : (s + 1) * B * (p * q) <= s * (B + 1) * (p * q)) by (apply Z.mul_le_mono_nonneg_r; nia).
  assert (E4 : (s + 1) * B * (p * q) * ((s + 1) * B * (p * q)) <=
               (s * q * p + 1) * (B + 1) * ((s * q * p + 1) * (B + 1)))
    by (apply sq_le; nia).
  lia.
Qed.

Lemma large_up_err x p q s B : 0 < p -> 0 < q -> 1 < B -> B <= s ->
  (s - 1) * (s - 1) * (p * p) < x ->
  (s * q * p - 1) * (B - 1) * ((s * q * p - 1) * (B - 1)) < x * (q * q) * (B * B).
Proof.
  intros Hp Hq HB Hs H1.
  assert (E1 : (s - 1) * (s - 1) * (p * p) * (q * q * (B * B)) < x * (q * q * (B * B)))
    by (apply Z.mul_lt_mono_pos_r; [nia | lia]).
  assert (Hpq : 0 < p * q) by nia.
  assert (E2 : s * (B - 1) * (p * q) <= (s - 1) * B * (p * q)) by (apply Z.mul_le_mono_nonneg_r; nia).
  assert (E4 : (s * q * p - 1) * (B - 1) * ((s * q * p - 1) * (B - 1)) <=
               (s - 1) * B * (p * q) * ((s - 1) * B * (p * q)))
    by (apply sq_le; nia).
  lia.
Qed.

Lemma sqrt_small_zero up : dfs_sqrt_u64 0 up = Val 0.
Proof. destruct up; vm_compute; reflexivity. Qed.

Lemma dfs_sqrt_down_spec x r : is_u256 x -> dfs_sqrt_u64 x false = Val r ->
  0 <= r /\ r * r <= x * ONE /\
  x * ONE * (2 ^ 31 * 2 ^ 31) < (r + 1) * (2 ^ 31 + 1) * ((r + 1) * (2 ^ 31 + 1)).
Proof.
  intros Hx H. rewrite <- SQRT_ONE_sq.
  assert (Hq : 0 < SQRT_ONE) by reflexivity. set (q := SQRT_ONE) in *.
  destruct (Z.lt_ge_cases x (2 ^ 64)) as [Hs | Hl].
  - destruct (Z.eq_dec x 0) as [-> | Hx0].
    { rewrite sqrt_small_zero in H. inv. lia. }
    unfold is_u256 in Hx.
    rewrite sqrt_small_closed in H by lia.
    pose proof (sqrt_small_exp_spec x ltac:(lia)) as (Hk & Hy & Hpos).
    destruct (Hpos ltac:(lia)) as [Hk31 Hy62]. clear Hpos.
    set (k := sqrt_small_exp x) in *. cbv zeta in H. fold q in H.
    pose proof (pow2_le_96 k ltac:(lia)) as [Hp _]. set (p := 2 ^ k) in *.
    injection H as <-. set (y := x * (p * p)) in *.
    pose proof (mantissa_sqrt_lo y Hy62) as Hs31.
    pose proof (sqrt_lower y ltac:(lia)) as [L1 L2]. set (s := Z.sqrt y) in *.
    pose proof (Z.div_mod (s * q) p ltac:(lia)) as Hd.
    pose proof (Z.mod_pos_bound (s * q) p ltac:(lia)) as Hm.
    assert (Hr : 0 <= s * q / p) by (apply Z.div_pos; nia).
    set (r := s * q / p) in *.
    split; [exact Hr |]. split.
    + apply small_down_dir with (p := p) (s := s); lia.
    + apply small_down_err with (p := p) (s := s); lia.
  - unfold is_u256 in Hx. rewrite sqrt_large_closed in H by lia.
    pose proof (sqrt_large_exp_spec x ltac:(lia)) as (Hk & Hu1 & Hu2).
    unfold sqrt_large_mantissa in H. set (k := sqrt_large_exp x) in *. cbv zeta in H. fold q in H.
    pose proof (pow2_le_96 k ltac:(lia)) as [Hp _]. set (p := 2 ^ k) in *.
    assert (Hpp : 0 < p * p) by nia.
    pose proof (Z.div_mod x (p * p) ltac:(lia)) as Hd.
    pose proof (Z.mod_pos_bound x (p * p) ltac:(lia)) as Hm.
    set (u := x / (p * p)) in *.
    destruct (Z.leb_spec u u64_max); [| discriminate]. injection H as <-.
    pose proof (mantissa_sqrt_lo u Hu1) as Hs31.
    pose proof (sqrt_lower u ltac:(lia)) as [L1 L2]. set (s := Z.sqrt u) in *.
    split; [nia |]. split.
    + assert (s * s * (p * p) <= x) by nia.
      assert (s * s * (p * p) * (q * q) <= x * (q * q)) by (apply Z.mul_le_mono_nonneg_r; nia). lia.
    + apply large_down_err; try lia. nia.
Qed.

Lemma dfs_sqrt_up_spec x r : is_u256 x -> dfs_sqrt_u64 x true = Val r ->
  0 <= r /\ x * ONE <= r * r /\ (x = 0 -> r = 0) /\
  (0 < x -> 1 <= r /\
    (r - 1) * (2 ^ 31 - 1) * ((r - 1) * (2 ^ 31 - 1)) < x * ONE * (2 ^ 31 * 2 ^ 31)).
Proof.
  intros Hx H. rewrite <- SQRT_ONE_sq.
  assert (Hq : 0 < SQRT_ONE) by reflexivity. set (q := SQRT_ONE) in *.
  destruct (Z.lt_ge_cases x (2 ^ 64)) as [Hs | Hl].
  - destruct (Z.eq_dec x 0) as [-> | Hx0].
    { rewrite sqrt_small_zero in H. inv. lia. }
    unfold is_u256 in Hx.
    rewrite sqrt_small_closed in H by lia.
    pose proof (sqrt_small_exp_spec x ltac:(lia)) as (Hk & Hy & Hpos).
    destruct (Hpos ltac:(lia)) as [Hk31 Hy62]. clear Hpos.
    set (k := sqrt_small_exp x) in *. cbv zeta in H. fold q in H.
    pose proof (pow2_le_96 k ltac:(lia)) as [Hp _]. set (p := 2 ^ k) in *.
    injection H as <-. set (y := x * (p * p)) in *.
    pose proof (mantissa_sqrt_up y Hy62) as Hs31.
    pose proof (sqrt_up_lower y ltac:(lia)) as [L1 L2]. set (s := Z.sqrt_up y) in *.
    pose proof (cdivup_spec (s * q) p ltac:(lia)) as Hd. set (r := cdivup (s * q) p) in *.
    assert (Hr : 1 <= r) by nia.
    split; [lia |]. split; [| split; [lia | intros _; split; [exact Hr |]]].
    + apply small_up_dir with (p := p) (s := s); lia.
    + apply small_up_err with (p := p) (s := s); lia.
  - unfold is_u256 in Hx. rewrite sqrt_large_closed in H by lia.
    pose proof (sqrt_large_exp_spec x ltac:(lia)) as (Hk & Hu1 & Hu2).
    unfold sqrt_large_mantissa in H. set (k := sqrt_large_exp x) in *. cbv zeta in H. fold q in H.
    pose proof (pow2_le_96 k ltac:(lia)) as [Hp _]. set (p := 2 ^ k) in *.
    assert (Hpp : 0 < p * p) by nia.
    pose proof (cdivup_spec x (p * p) Hpp) as Hd.
    assert (Hv : 2 ^ 62 <= cdivup x (p * p)).
    { rewrite cdivup_floor by lia. destruct (_ <? _); lia. }
    clear Hu1 Hu2. set (u := cdivup x (p * p)) in *.
    destruct (Z.leb_spec u u64_max); [| discriminate]. injection H as <-.
    pose proof (mantissa_sqrt_up u Hv) as Hs31.
    pose proof (sqrt_up_lower u ltac:(lia)) as [L1 L2]. set (s := Z.sqrt_up u) in *.
    assert (Hr : 1 <= s * q * p) by nia.
    split; [lia |]. split; [| split; [lia | intros _; split; [exact Hr |]]].
    + assert (x <= s * s * (p * p)) by nia.
      assert (x * (q * q) <= s * s * (p * p) * (q * q)) by (apply Z.mul_le_mono_nonneg_r; nia). lia.
    + apply large_up_err; try lia. nia.
Qed.

(** The result is always a value, except that rounding up an all-ones 64-bit
    mantissa panics. *)
Lemma dfs_sqrt_total x up : is_u256 x ->
  (exists r, dfs_sqrt_u64 x up = Val r) \/
  (dfs_sqrt_u64 x up = Panic /\ up = true /\
   exists k, 1 <= k /\ (2 ^ 64 - 1) * 4 ^ k < x < 2 ^ 64 * 4 ^ k).
Proof.
  intros Hx. unfold is_u256 in Hx. destruct (Z.lt_ge_cases x (2 ^ 64)) as [Hs | Hl].
  - left. rewrite sqrt_small_closed by lia. eexists. reflexivity.
  - rewrite sqrt_large_closed by lia. cbv zeta.
    destruct (Z.leb_spec (sqrt_large_mantissa x up) u64_max) as [| Hgt]; [left; eexists; reflexivity |].
    right. split; [reflexivity |].
    pose proof (sqrt_large_exp_spec x ltac:(lia)) as (Hk & Hu1 & Hu2).
    unfold sqrt_large_mantissa in Hgt. set (k := sqrt_large_exp x) in *.
    destruct up; [| unfold u64_max in Hgt; lia]. split; [reflexivity |].
    exists k. split; [lia |].
    replace (4 ^ k) with (2 ^ k * 2 ^ k) by (rewrite <- Z.pow_mul_l; reflexivity).
    pose proof (pow2_le_96 k ltac:(lia)) as [Hp _]. set (p := 2 ^ k) in *.
    assert (Hpp : 0 < p * p) by nia.
    pose proof (cdivup_spec x (p * p) Hpp) as Hd.
    pose proof (Z.div_mod x (p * p) ltac:(lia)) as Hd1.
    pose proof (Z.mod_pos_bound x (p * p) ltac:(lia)) as Hm.
    unfold u64_max in Hgt. nia.
Qed.

Lemma bits_unique x n : 1 <= n -> 2 ^ (n - 1) <= x < 2 ^ n -> bits x = n.
Proof.
  intros Hn Hx. pose proof (Z.pow_pos_nonneg 2 (n - 1) ltac:(lia) ltac:(lia)).
  unfold bits. destruct (Z.eqb_spec x 0); [lia |].
  rewrite (Z.log2_unique x (n - 1)); [lia | lia |].
  replace (Z.succ (n - 1)) with n by lia. lia.
Qed.

Lemma dfs_sqrt_panics x k : is_u256 x -> 1 <= k ->
  (2 ^ 64 - 1) * 4 ^ k < x < 2 ^ 64 * 4 ^ k -> dfs_sqrt_u64 x true = Panic.
Proof.
  intros Hx Hk Hb. unfold is_u256 in Hx.
  assert (H4 : 4 ^ 1 <= 4 ^ k) by (apply Z.pow_le_mono_r; lia).
  assert (E4 : 4 ^ k = 2 ^ k * 2 ^ k) by (rewrite <- Z.pow_mul_l; reflexivity).
  assert (Hbits : bits x = 64 + 2 * k).
  { apply bits_unique; [lia |].
    replace (64 + 2 * k - 1) with (63 + 2 * k) by lia.
    rewrite !Z.pow_add_r by lia. rewrite Z.pow_mul_r by lia. change (2 ^ 2) with 4. lia. }
  rewrite sqrt_large_closed by lia. cbv zeta. unfold sqrt_large_mantissa.
  replace (sqrt_large_exp x) with k
    by (unfold sqrt_large_exp; rewrite Hbits; apply (Z.div_unique _ _ _ 1); lia).
  rewrite <- E4.
  pose proof (cdivup_spec x (4 ^ k) ltac:(lia)) as Hd.
  destruct (Z.leb_spec (cdivup x (4 ^ k)) u64_max) as [Hle |]; [| reflexivity].
  unfold u64_max in Hle. nia.
Qed.

(** ** Monotonicity *)
Definition sqrt_class (x : Z) : Z := Z.log2 x / 2.

Lemma sqrt_class_spec x : 0 < x ->
  let m := sqrt_class x in 0 <= m /\ (2 ^ m * 2 ^ m) <= x < 4 * (2 ^ m * 2 ^ m).
Proof.
  intros Hx. unfold sqrt_class. set (l := Z.log2 x).
  pose proof (Z.log2_spec x Hx) as Hl. fold l in Hl.
  pose proof (Z.log2_nonneg x) as Hn. fold l in Hn.
  pose proof (Z.div_mod l 2 ltac:(lia)). pose proof (Z.mod_pos_bound l 2 ltac:(lia)).
  cbv zeta. set (m := l / 2) in *. split; [lia |]. rewrite <- pow_even by lia.
  change 4 with (2 ^ 2) at 1. rewrite <- Z.pow_add_r by lia.
  split.
  - apply Z.le_trans with (2 ^ l); [apply Z.pow_le_mono_r; lia | lia].
  - apply Z.lt_le_trans with (2 ^ Z.succ l); [lia | apply Z.pow_le_mono_r; lia].
Qed.

Lemma sqrt_class_exp x : 0 < x ->
  sqrt_small_exp x = 31 - sqrt_class x /\ sqrt_large_exp x = sqrt_class x - 31.
Proof.
  intros Hx. unfold sqrt_small_exp, sqrt_large_exp, sqrt_class, bits.
  destruct (Z.eqb_spec x 0); [lia |]. set (l := Z.log2 x).
  pose proof (Z.div_mod l 2 ltac:(lia)). pose proof (Z.mod_pos_bound l 2 ltac:(lia)).
  split.
  - symmetry. apply (Z.div_unique _ _ _ (1 - l mod 2)); lia.
  - symmetry. apply (Z.div_unique _ _ _ (l mod 2)); lia.
Qed.

Lemma sqrt_class_bounds x up r : 0 < x <= u256_max -> dfs_sqrt_u64 x up = Val r ->
  2 ^ sqrt_class x * SQRT_ONE <= r <= 2 * 2 ^ sqrt_class x * SQRT_ONE.
Proof.
  intros Hx H. pose proof (sqrt_class_exp x ltac:(lia)) as [Es El].
  pose proof (sqrt_class_spec x ltac:(lia)) as [Hm _]. set (m := sqrt_class x) in *.
  assert (Hq : 0 < SQRT_ONE) by reflexivity. set (q := SQRT_ONE) in *.
  destruct (Z.lt_ge_cases x (2 ^ 64)) as [Hs | Hl].
  - rewrite sqrt_small_closed in H by lia.
    pose proof (sqrt_small_exp_spec x ltac:(lia)) as (Hk & Hy & Hpos).
    destruct (Hpos ltac:(lia)) as [Hk31 Hy62]. clear Hpos. cbv zeta in H. rewrite Es in *.
    fold q in H. pose proof (pow2_le_96 (31 - m) ltac:(lia)) as [Hp _].
    assert (E : 2 ^ m * 2 ^ (31 - m) = 2 ^ 31)
      by (rewrite <- Z.pow_add_r by lia; f_equal; lia).
    set (p := 2 ^ (31 - m)) in *. set (w := 2 ^ m) in *. set (y := x * (p * p)) in *.
    injection H as <-. destruct up.
    + pose proof (mantissa_sqrt_up y Hy62) as H31.
      pose proof (sqrt_up_bound y (2 ^ 32) ltac:(lia) ltac:(lia)) as H32.
      set (s := Z.sqrt_up y) in *.
      assert (L : cdivup (w * q * p) p <= cdivup (s * q) p) by (apply cdivup_mono; nia).
      assert (U : cdivup (s * q) p <= cdivup (2 * w * q * p) p) by (apply cdivup_mono; nia).
      rewrite cdivup_exact in L, U by lia. lia.
    + pose proof (mantissa_sqrt_lo y Hy62) as H31.
      pose proof (sqrt_bound y (2 ^ 32) ltac:(lia) ltac:(lia)) as H32.
      set (s := Z.sqrt y) in *. split.
      * apply Z.div_le_lower_bound; nia.
      * apply Z.div_le_upper_bound; nia.
  - rewrite sqrt_large_closed in H by lia.
    pose proof (sqrt_large_exp_spec x ltac:(lia)) as (Hk & Hu1 & Hu2).
    unfold sqrt_large_mantissa in H. cbv zeta in H. rewrite El in *. fold q in H.
    pose proof (pow2_le_96 (m - 31) ltac:(lia)) as [Hp _].
    assert (E : 2 ^ (m - 31) * 2 ^ 31 = 2 ^ m)
      by (rewrite <- Z.pow_add_r by lia; f_equal; lia).
    set (p := 2 ^ (m - 31)) in *. set (w := 2 ^ m) in *.
    assert (Hpp : 0 < p * p) by nia.
    destruct up.
    + assert (Hv : 2 ^ 62 <= cdivup x (p * p)).
      { rewrite cdivup_floor by lia. destruct (_ <? _); lia. }
      set (u := cdivup x (p * p)) in *.
      destruct (Z.leb_spec u u64_max) as [Hle |]; [| discriminate]. injection H as <-.
      pose proof (mantissa_sqrt_up u Hv) as H31. unfold u64_max in Hle.
      pose proof (sqrt_up_bound u (2 ^ 32) ltac:(lia) ltac:(lia)) as H32.
      set (s := Z.sqrt_up u) in *. nia.
    + set (u := x / (p * p)) in *.
      destruct (Z.leb_spec u u64_max) as [Hle |]; [| discriminate]. injection H as <-.
      pose proof (mantissa_sqrt_lo u Hu1) as H31.
      pose proof (sqrt_bound u (2 ^ 32) ltac:(lia) ltac:(lia)) as H32.
      set (s := Z.sqrt u) in *. nia.
Qed.

Lemma sqrt_class_mono x y : 0 < x <= y -> sqrt_class x <= sqrt_class y.
Proof.
  intros H. unfold sqrt_class. apply Z.div_le_mono; [lia |]. apply Z.log2_le_mono. lia.
Qed.

Lemma dfs_sqrt_mono x y up r r' : is_u256 x -> is_u256 y -> x <= y ->
  dfs_sqrt_u64 x up = Val r -> dfs_sqrt_u64 y up = Val r' -> r <= r'.
Proof.
  intros Hx Hy Hle H H'. unfold is_u256 in *.
  destruct (Z.eq_dec x 0) as [-> | Hx0].
  { rewrite sqrt_small_zero in H. injection H as <-. destruct up.
    - apply (dfs_sqrt_up_spec y r'); [unfold is_u256; lia | exact H'].
    - apply (dfs_sqrt_down_spec y r'); [unfold is_u256; lia | exact H']. }
  pose proof (sqrt_class_mono x y ltac:(lia)) as Hc.
  assert (Hq : 0 < SQRT_ONE) by reflexivity.
  destruct (Z.eq_dec (sqrt_class x) (sqrt_class y)) as [E | Hne].
  - pose proof (sqrt_class_spec x ltac:(lia)) as [Hm Hbx].
    pose proof (sqrt_class_spec y ltac:(lia)) as [_ Hby].
    pose proof (sqrt_class_exp x ltac:(lia)) as [Es El].
    pose proof (sqrt_class_exp y ltac:(lia)) as [Es' El']. rewrite <- E in *.
    destruct (Z.lt_ge_cases y (2 ^ 64)) as [Hs | Hl].
    + rewrite sqrt_small_closed in H, H' by lia. cbv zeta in H, H'. rewrite Es in H. rewrite Es' in H'.
      pose proof (sqrt_small_exp_spec x ltac:(lia)) as (Hk & _). rewrite Es in Hk.
      pose proof (pow2_le_96 (31 - sqrt_class x) ltac:(lia)) as [Hp _].
      set (p := 2 ^ (31 - sqrt_class x)) in *.
      injection H as <-. injection H' as <-. destruct up.
      * apply cdivup_mono; [lia |]. apply Z.mul_le_mono_nonneg_r; [lia |].
        apply Z.sqrt_up_le_mono. nia.
      * apply Z.div_le_mono; [lia |]. apply Z.mul_le_mono_nonneg_r; [lia |].
        apply Z.sqrt_le_mono. nia.
    + destruct (Z.lt_ge_cases x (2 ^ 64)) as [Hsx | Hlx].
      { exfalso. pose proof (sqrt_small_exp_spec x ltac:(lia)) as (Hk & _).
        pose proof (sqrt_large_exp_spec y ltac:(lia)) as (Hk' & _). lia. }
      rewrite sqrt_large_closed in H, H' by lia. unfold sqrt_large_mantissa in *. cbv zeta in H, H'.
      rewrite El in H. rewrite El' in H'.
      pose proof (sqrt_large_exp_spec x ltac:(lia)) as (Hk & _). rewrite El in Hk.
      pose proof (pow2_le_96 (sqrt_class x - 31) ltac:(lia)) as [Hp _].
      set (p := 2 ^ (sqrt_class x - 31)) in *.
      destruct up.
      * destruct (_ <=? _); [| discriminate]. destruct (_ <=? _); [| discriminate].
        injection H as <-. injection H' as <-.
        apply Z.mul_le_mono_nonneg_r; [lia |]. apply Z.mul_le_mono_nonneg_r; [lia |].
        apply Z.sqrt_up_le_mono. apply cdivup_mono; nia.
      * destruct (_ <=? _); [| discriminate]. destruct (_ <=? _); [| discriminate].
        injection H as <-. injection H' as <-.
        apply Z.mul_le_mono_nonneg_r; [lia |]. apply Z.mul_le_mono_nonneg_r; [lia |].
        apply Z.sqrt_le_mono. apply Z.div_le_mono; nia.
  - apply sqrt_class_bounds in H; [| lia]. apply sqrt_class_bounds in H'; [| lia].
    assert (2 * 2 ^ sqrt_class x <= 2 ^ sqrt_class y).
    { pose proof (sqrt_class_spec x ltac:(lia)) as [Hm _].
      replace (2 * 2 ^ sqrt_class x) with (2 ^ (sqrt_class x + 1))
        by (rewrite Z.pow_add_r by lia; change (2 ^ 1) with 2; lia).
      apply Z.pow_le_mono_r; lia. }
    nia.
Qed.

(** ** Conversions and rounding *)
Lemma dfs_to_imprecise_spec x n : is_u256 x ->
  dfs_to_imprecise x = Val n <-> is_u128 n /\ 2 * n * ONE - ONE <= 2 * x < 2 * n * ONE + ONE.
Proof.
  intros Hx. unfold is_u256, is_u128, u256_max, u128_max in *. unfold dfs_to_imprecise.
  split.
  - intros H. inv. destruct (Z.leb_spec ((x + HALF) / ONE) u128_max) as [Hle |]; [| discriminate].
    inv. unfold u128_max in Hle.
    pose proof (Z.div_mod (x + HALF) ONE ltac:(lia)). pose proof (Z.mod_pos_bound (x + HALF) ONE ONE_pos).
    pose proof HALF_ONE. assert (0 <= (x + HALF) / ONE) by (apply Z.div_pos; unfold HALF, ONE; lia). lia.
  - intros [Hn Hb]. rewrite add_in_eq by (unfold ONE, HALF, u256_max in *; lia). cbn [obind].
    rewrite cdiv_eq by (vm_compute; congruence). cbn [obind].
    replace ((x + HALF) / ONE) with n
      by (apply (Z.div_unique _ _ _ (x + HALF - n * ONE)); [left |]; unfold ONE, HALF in *; lia).
    destruct (Z.leb_spec n u128_max); [reflexivity | unfold u128_max in *; lia].
Qed.

Lemma dfs_to_imprecise_no_panic x : dfs_to_imprecise x <> Panic.
Proof.
  unfold dfs_to_imprecise. destruct (add_in _ _ _) eqn:E; cbn [obind].
  - destruct (cdiv a ONE) eqn:F; cbn [obind];
      [destruct (_ <=? _); discriminate | discriminate | apply cdiv_no_panic in F; contradiction].
  - discriminate.
  - apply add_in_no_panic in E. contradiction.
Qed.

Lemma dfs_roundtrip v : is_u128 v ->
  exists x, dfs_new v = Val x /\ x = v * ONE /\ dfs_to_imprecise x = Val v.
Proof.
  intros Hv. unfold is_u128, u128_max in Hv. exists (v * ONE). split.
  - apply dfs_new_val. unfold ONE, u256_max. lia.
  - split; [reflexivity |].
    apply dfs_to_imprecise_spec; unfold is_u256, is_u128, u256_max, u128_max, ONE; lia.
Qed.

Lemma dfs_floor_spec x : is_u256 x ->
  exists n, dfs_floor x = Val (n * ONE) /\ n * ONE <= x < (n + 1) * ONE.
Proof.
  intros Hx. unfold is_u256 in Hx. exists (x / ONE). unfold dfs_floor.
  pose proof (Z.div_mod x ONE ltac:(vm_compute; congruence)).
  pose proof (Z.mod_pos_bound x ONE ONE_pos).
  rewrite cdiv_eq by (vm_compute; congruence). cbn [obind]. rewrite mul_in_eq by lia.
  split; [reflexivity | lia].
Qed.

Lemma dfs_ceiling_spec x : is_u256 x ->
  (x + (ONE - 1) <= u256_max ->
   exists n, dfs_ceiling x = Val (n * ONE) /\ (n - 1) * ONE < x <= n * ONE) /\
  (u256_max < x + (ONE - 1) -> dfs_ceiling x = Non).
Proof.
  intros Hx. unfold is_u256 in Hx. unfold dfs_ceiling.
  rewrite csub_eq by (vm_compute; congruence). cbn [obind]. split; intros Hb.
  - rewrite add_in_eq by exact Hb. cbn [obind].
    rewrite cdiv_eq by (vm_compute; congruence). cbn [obind].
    pose proof (Z.div_mod (x + (ONE - 1)) ONE ltac:(vm_compute; congruence)).
    pose proof (Z.mod_pos_bound (x + (ONE - 1)) ONE ONE_pos).
    rewrite mul_in_eq by lia. eexists. split; [reflexivity | lia].
  - unfold add_in. destruct (Z.leb_spec (x + (ONE - 1)) u256_max); [lia | reflexivity].
Qed.

(** ** Multiplication and division *)
Lemma div_bounds a b : 0 < b -> a / b * b <= a < (a / b + 1) * b.
Proof. intros Hb. pose proof (Z.div_mod a b ltac:(lia)). pose proof (Z.mod_pos_bound a b Hb). lia. Qed.

Lemma dfs_mul_normal x y z : 0 <= x * y <= u256_max -> dfs_mul x y = Val z ->
  2 * z * ONE - ONE <= 2 * (x * y) < 2 * z * ONE + ONE.
Proof.
  intros Hb H. unfold dfs_mul in H. rewrite mul_in_eq in H by lia. inv.
  pose proof (div_bounds (x * y + HALF) ONE ONE_pos). pose proof HALF_ONE. lia.
Qed.

Lemma dfs_mul_defined x y : 0 <= x * y -> x * y + HALF <= u256_max ->
  dfs_mul x y = Val ((x * y + HALF) / ONE).
Proof.
  intros Hb Hm. unfold dfs_mul. assert (0 <= HALF) by (vm_compute; congruence).
  rewrite mul_in_eq by lia. rewrite add_in_eq by lia.
  cbn [obind]. apply cdiv_eq. vm_compute; congruence.
Qed.

Lemma mul_in_over m a b : m < a * b -> mul_in m a b = Non.
Proof. intros H. unfold mul_in. destruct (Z.leb_spec (a * b) m); [lia | reflexivity]. Qed.

Lemma dfs_mul_overflow x y z : is_u256 x -> is_u256 y -> u256_max < x * y -> dfs_mul x y = Val z ->
  z * ONE <= x * y < z * ONE + Z.min x y * ONE.
Proof.
  intros Hx Hy Hb H. unfold is_u256 in *. unfold dfs_mul in H. rewrite mul_in_over in H by lia.
  destruct (Z.leb_spec y x) as [Hle | Hlt].
  - inv. rewrite Z.min_r by lia. pose proof (div_bounds x ONE ONE_pos) as D.
    unfold u256_max in *. set (q := x / ONE) in *. nia.
  - inv. rewrite Z.min_l by lia. pose proof (div_bounds y ONE ONE_pos) as D.
    unfold u256_max in *. set (q := y / ONE) in *. nia.
Qed.

Lemma dfs_mul_no_panic x y : dfs_mul x y <> Panic.
Proof.
  unfold dfs_mul. destruct (mul_in u256_max x y) eqn:E.
  - destruct (add_in _ _ _) eqn:F; cbn [obind];
      [apply cdiv_no_panic | discriminate | apply add_in_no_panic in F; contradiction].
  - destruct (y <=? x).
    + destruct (cdiv x ONE) eqn:F; cbn [obind];
      [apply mul_in_no_panic | discriminate | apply cdiv_no_panic in F; contradiction].
    + destruct (cdiv y ONE) eqn:F; cbn [obind];
      [apply mul_in_no_panic | discriminate | apply cdiv_no_panic in F; contradiction].
  - apply mul_in_no_panic in E. contradiction.
Qed.

Lemma dfs_div_zero x : dfs_div x 0 = Non.
Proof. reflexivity. Qed.

Lemma dfs_div_normal x y z : 0 < y -> 0 <= x * ONE <= u256_max -> dfs_div x y = Val z ->
  z * y <= x * ONE + HALF < (z + 1) * y.
Proof.
  intros Hy Hb H. unfold dfs_div in H. destruct (Z.eqb_spec y 0); [lia |].
  rewrite mul_in_eq in H by lia. inv. apply div_bounds. lia.
Qed.

Lemma dfs_div_defined x y : 0 < y -> 0 <= x -> x * ONE + HALF <= u256_max ->
  dfs_div x y = Val ((x * ONE + HALF) / y).
Proof.
  intros Hy Hx Hm. unfold dfs_div. assert (0 <= HALF) by (vm_compute; congruence).
  destruct (Z.eqb_spec y 0); [lia |].
  rewrite mul_in_eq by lia. rewrite add_in_eq by lia.
  cbn [obind]. apply cdiv_eq. lia.
Qed.

Lemma dfs_div_overflow x y z : 0 < y -> 0 <= x -> u256_max < x * ONE -> dfs_div x y = Val z ->
  z * y <= (x + HALF) * ONE < (z + ONE) * y.
Proof.
  intros Hy Hx Hb H. unfold dfs_div in H. destruct (Z.eqb_spec y 0); [lia |].
  rewrite mul_in_over in H by lia. inv.
  pose proof (div_bounds (x + HALF) y Hy). pose proof ONE_pos. set (q := (x + HALF) / y) in *. nia.
Qed.

Lemma dfs_div_no_panic x y : dfs_div x y <> Panic.
Proof.
  unfold dfs_div. destruct (y =? 0); [discriminate |]. destruct (mul_in u256_max x ONE) eqn:E.
  - destruct (add_in _ _ _) eqn:F; cbn [obind];
      [apply cdiv_no_panic | discriminate | apply add_in_no_panic in F; contradiction].
  - destruct (add_in _ _ _) eqn:F; cbn [obind];
      [| discriminate | apply add_in_no_panic in F; contradiction].
    destruct (cdiv a y) eqn:G; cbn [obind];
      [apply mul_in_no_panic | discriminate | apply cdiv_no_panic in G; contradiction].
  - apply mul_in_no_panic in E. contradiction.
Qed.

Lemma dfs_div_ge_one x y z : ONE <= y -> 0 <= x * ONE <= u256_max -> dfs_div x y = Val z ->
  Z.abs (z * y - x * ONE) < y.
Proof.
  intros Hy Hb H. pose proof ONE_pos. pose proof HALF_ONE. apply dfs_div_normal in H; lia.
Qed.

(** ** Conversion to the coarser spl type *)
Lemma dfs_to_spl_closed x n : is_u256 x -> dfs_to_imprecise x = Val n ->
  dfs_to_spl x = Val (n * SPL_ONE + x mod ONE / 1000000).
Proof.
  intros Hx Hn. unfold dfs_to_spl. rewrite Hn. cbn [obind].
  apply dfs_to_imprecise_spec in Hn; [| exact Hx]. destruct Hn as [Hu _].
  unfold is_u128, u128_max in Hu.
  unfold spl_new. rewrite mul_in_eq by (unfold SPL_ONE, u256_max; lia). cbn [obind].
  pose proof (Z.mod_pos_bound x ONE ONE_pos) as Hm. set (d := x mod ONE) in *.
  unfold as_u128. destruct (Z.leb_spec d u128_max) as [_ |]; [| unfold ONE, u128_max in *; lia].
  cbn [obind]. rewrite mul_in_eq by (unfold SPL_ONE, ONE, u256_max in *; lia). cbn [obind].
  rewrite mul_in_eq by (unfold SPL_ONE, ONE, u256_max in *; lia). cbn [obind].
  unfold spl_div. change (ONE * SPL_ONE =? 0) with false. cbv iota.
  rewrite mul_in_eq by (unfold SPL_ONE, ONE, u256_max in *; lia).
  rewrite add_in_eq by (unfold SPL_HALF, SPL_ONE, ONE, u256_max in *; lia). cbn [obind].
  rewrite cdiv_eq by (vm_compute; congruence). cbn [obind].
  assert (E : (d * SPL_ONE * SPL_ONE + SPL_HALF) / (ONE * SPL_ONE) = d / 1000000).
  { pose proof (div_bounds d 1000000 ltac:(lia)).
    symmetry. apply (Z.div_unique _ _ _ ((d - d / 1000000 * 1000000) * SPL_ONE * SPL_ONE + SPL_HALF)).
    - left. unfold SPL_HALF, SPL_ONE, ONE. lia.
    - unfold SPL_HALF, SPL_ONE, ONE. lia. }
  rewrite E. unfold spl_add. apply add_in_eq.
  pose proof (div_bounds d 1000000 ltac:(lia)). unfold SPL_ONE, ONE, u256_max in *. lia.
Qed.

Lemma dfs_to_spl_value x y : is_u256 x -> dfs_to_spl x = Val y ->
  let excess := if HALF <=? x mod ONE then ONE else 0 in
  y * 1000000 <= x + excess < (y + 1) * 1000000.
Proof.
  intros Hx H. destruct (dfs_to_imprecise x) as [n | |] eqn:E.
  - rewrite (dfs_to_spl_closed x n Hx E) in H. injection H as <-.
    apply dfs_to_imprecise_spec in E; [| exact Hx]. destruct E as [Hn Hb].
    pose proof (Z.div_mod x ONE ltac:(vm_compute; congruence)) as Hd.
    pose proof (Z.mod_pos_bound x ONE ONE_pos) as Hm.
    pose proof (div_bounds (x mod ONE) 1000000 ltac:(lia)) as Hq.
    set (d := x mod ONE) in *. set (w := x / ONE) in *.
    destruct (Z.leb_spec HALF d); cbv zeta.
    + assert (n = w + 1) by (unfold ONE, HALF in *; lia). subst n. unfold SPL_ONE, ONE in *. lia.
    + assert (n = w) by (unfold ONE, HALF in *; lia). subst n. unfold SPL_ONE, ONE in *. lia.
  - unfold dfs_to_spl in H. rewrite E in H. discriminate.
  - unfold dfs_to_spl in H. rewrite E in H. discriminate.
Qed.
