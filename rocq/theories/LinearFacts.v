(** Closed forms for the linear curve (curve/linear_price.rs). *)
From Verif Require Import Tactics SplMath DfsPrecise SqrtFacts DfsFacts Fees LinearCurve SwapCurve Spec CurveFacts.

(** Parameters accepted at pool creation, as far as the arithmetic needs them. *)
Definition linear_pos (c : linear_curve) : Prop :=
  linear_wf c /\ 0 < slope_num c /\ 0 < slope_den c /\ 0 < price_den c.

(** 10^18 times the discriminant and the initial price, rounded as in the code. *)
Definition e_val (c : linear_curve) : Z := price_num c * ONE / price_den c.
Definition b_of_root (c : linear_curve) (r : Z) : Z :=
  Z.max 0 (r - e_val c) * slope_den c / slope_num c.

Lemma disc_bounds c a : linear_pos c -> 0 <= a < 2 ^ 65 -> 0 <= disc c a < 2 ^ 191.
Proof.
  intros [Hw (Hsn & Hsd & Hpd)] Ha. unfold linear_wf, is_u64, u64_max in Hw. unfold disc.
  assert (Hpp : 0 < price_den c * price_den c) by nia.
  assert (H1 : 0 <= price_num c * price_num c * ONE / (price_den c * price_den c)).
  { apply Z.div_pos; [unfold ONE; nia | lia]. }
  assert (H2 : price_num c * price_num c * ONE / (price_den c * price_den c) <= 2 ^ 128 * ONE).
  { apply Z.div_le_upper_bound; [lia |]. unfold ONE.
    assert (price_num c * price_num c <= 2 ^ 128) by nia. nia. }
  assert (H3 : 0 <= 2 * slope_num c * a * ONE / slope_den c).
  { apply Z.div_pos; [unfold ONE; nia | lia]. }
  assert (H4 : 2 * slope_num c * a * ONE / slope_den c <= 2 ^ 130 * ONE).
  { apply Z.div_le_upper_bound; [lia |]. unfold ONE.
    assert (slope_num c * a <= 2 ^ 129) by nia. nia. }
  unfold ONE in *. lia.
Qed.

Lemma e_val_bounds c : linear_pos c -> 0 <= e_val c < 2 ^ 124.
Proof.
  intros [Hw (Hsn & Hsd & Hpd)]. unfold linear_wf, is_u64, u64_max in Hw. unfold e_val. split.
  - apply Z.div_pos; [unfold ONE; nia | lia].
  - apply Z.div_lt_upper_bound; [lia |]. unfold ONE. nia.
Qed.

Lemma root_bounds x up r : 0 <= x < 2 ^ 191 -> dfs_sqrt_u64 x up = Val r -> 0 <= r < 2 ^ 126.
Proof.
  intros Hx H. assert (Hu : is_u256 x) by (unfold is_u256, u256_max; lia). destruct up.
  - apply dfs_sqrt_up_spec in H; [| exact Hu]. destruct H as (Hr & _ & H0 & H1).
    split; [exact Hr |]. destruct (Z.eq_dec x 0) as [E | Hne]; [rewrite (H0 E); lia |].
    destruct (H1 ltac:(lia)) as [H2 H3]. unfold ONE in H3.
    destruct (Z.lt_ge_cases r (2 ^ 126)); [assumption |]. exfalso.
    assert ((2 ^ 126 - 1) * (2 ^ 31 - 1) * ((2 ^ 126 - 1) * (2 ^ 31 - 1)) <=
            (r - 1) * (2 ^ 31 - 1) * ((r - 1) * (2 ^ 31 - 1))) by (apply sq_le; lia).
    lia.
  - apply dfs_sqrt_down_spec in H; [| exact Hu]. destruct H as (Hr & H1 & _).
    split; [exact Hr |]. destruct (Z.lt_ge_cases r (2 ^ 126)); [assumption |]. exfalso.
    assert (2 ^ 126 * 2 ^ 126 <= r * r) by (apply sq_le; lia). unfold ONE in H1. lia.
Qed.

Lemma div_mul_cancel a b k : 0 < b -> 0 < k -> a * k / (b * k) = a / b.
Proof. intros Hb Hk. apply Z.div_mul_cancel_r; lia. Qed.

Lemma b_value_closed c a up : linear_pos c -> 0 <= a < 2 ^ 65 ->
  b_value_with_amt_a_locked c (a * ONE) up =
    (let? r := dfs_sqrt_u64 (disc c a) up in Val (b_of_root c r)).
Proof.
  intros Hc Ha. pose proof (disc_bounds c a Hc Ha) as Hdisc. pose proof (e_val_bounds c Hc) as Hev.
  destruct Hc as [Hw (Hsn & Hsd & Hpd)]. unfold linear_wf, is_u64, u64_max in Hw.
  destruct c as [sn sd pn pd]. cbn [slope_num slope_den price_num price_den] in *.
  unfold b_value_with_amt_a_locked. cbn [slope_num slope_den price_num price_den].
  rewrite !dfs_new_val by (unfold ONE, u256_max; lia). cbn [obind].
  rewrite dfs_mul_whole by (unfold ONE, HALF, u256_max; lia). cbn [obind].
  rewrite dfs_mul_whole by (unfold ONE, HALF, u256_max; lia). cbn [obind].
  unfold solve_quadratic_positive_root.
  rewrite dfs_new_val by (unfold ONE, u256_max; lia). cbn [obind].
  rewrite dfs_mul_whole by (unfold ONE, HALF, u256_max; lia). cbn [obind].
  assert (Hsa : 0 <= sn * a <= 2 ^ 129) by nia.
  rewrite dfs_mul_whole by (unfold ONE, HALF, u256_max; nia). cbn [obind].
  replace (sd * ONE * 2) with (2 * sd * ONE) by ring.
  rewrite dfs_div_whole by (unfold ONE, HALF, u256_max; nia). cbn [obind].
  assert (Hpp : 0 <= pn * pn <= 2 ^ 128) by nia.
  rewrite dfs_mul_whole by (unfold ONE, HALF, u256_max; nia). cbn [obind].
  rewrite dfs_div_whole by (unfold ONE, HALF, u256_max; nia). cbn [obind].
  assert (Hq : 0 <= pn * ONE * pn / pd <= 2 ^ 128 * ONE).
  { split; [apply Z.div_pos; unfold ONE; nia |].
    apply Z.div_le_upper_bound; [lia |]. unfold ONE. nia. }
  rewrite dfs_div_whole by (unfold ONE, HALF, u256_max in *; lia). cbn [obind].
  assert (E1 : pn * ONE * pn / pd / pd = pn * pn * ONE / (pd * pd)).
  { rewrite Z.div_div by lia. f_equal. ring. }
  assert (E2 : sn * ONE * 1 * 4 * a / (2 * sd) = 2 * sn * a * ONE / sd).
  { rewrite <- (div_mul_cancel (2 * sn * a * ONE) sd 2) by lia. f_equal; ring. }
  rewrite E1, E2. unfold disc in *. cbn [slope_num slope_den price_num price_den] in *.
  set (d := pn * pn * ONE / (pd * pd) + 2 * sn * a * ONE / sd) in *.
  unfold dfs_add. rewrite add_in_eq by (fold d; unfold u256_max; lia). fold d. cbn [obind].
  destruct (dfs_sqrt_u64 d up) as [r | |] eqn:Hr; cbn [obind]; [| reflexivity | reflexivity].
  pose proof (root_bounds d up r Hdisc Hr) as Hrb.
  rewrite dfs_div_whole by (unfold ONE, HALF, u256_max; nia). cbn [obind].
  change (pn * ONE / pd) with (e_val (mk_linear sn sd pn pd)).
  set (ev := e_val (mk_linear sn sd pn pd)) in *.
  assert (E3 : (match dfs_sub r ev with Val v => Val v | Non => dfs_new 0 | Panic => Panic end)
               = Val (Z.max 0 (r - ev))).
  { unfold dfs_sub, csub. destruct (Z.leb_spec ev r).
    - f_equal. lia.
    - rewrite dfs_new_val by (vm_compute; congruence). f_equal. lia. }
  rewrite E3. cbn [obind]. set (x := Z.max 0 (r - ev)) in *.
  assert (Hx : 0 <= x < 2 ^ 126) by lia.
  rewrite dfs_mul_whole by (unfold ONE, HALF, u256_max; nia). cbn [obind].
  replace (sn * ONE * 1) with (sn * ONE) by ring.
  rewrite dfs_div_whole by (unfold ONE, HALF, u256_max; nia). cbn [obind].
  assert (Hy : 0 <= x * (2 * sd) / sn <= x * (2 * sd)).
  { split; [apply Z.div_pos; nia |]. apply Z.div_le_upper_bound; nia. }
  rewrite dfs_new_val by (vm_compute; congruence). cbn [obind].
  rewrite dfs_div_whole by (unfold ONE, HALF, u256_max; nia).
  f_equal. unfold b_of_root. cbn [slope_num slope_den]. fold ev. fold x.
  rewrite Z.div_div by lia.
  rewrite <- (div_mul_cancel (x * sd) sn 2) by lia. f_equal; ring.
Qed.

Lemma b_of_root_bounds c r : linear_pos c -> 0 <= r < 2 ^ 126 -> 0 <= b_of_root c r < 2 ^ 190.
Proof.
  intros Hc Hr. pose proof (e_val_bounds c Hc) as He.
  destruct Hc as [Hw (Hsn & Hsd & Hpd)]. unfold linear_wf, is_u64, u64_max in Hw. unfold b_of_root.
  assert (0 <= Z.max 0 (r - e_val c) < 2 ^ 126) by lia. set (x := Z.max 0 (r - e_val c)) in *. split.
  - apply Z.div_pos; nia.
  - apply Z.div_lt_upper_bound; nia.
Qed.

Lemma b_of_root_mono c r r' : linear_pos c -> r <= r' -> b_of_root c r <= b_of_root c r'.
Proof.
  intros [_ (Hsn & Hsd & Hpd)] Hr. unfold b_of_root.
  apply Z.div_le_mono; [lia |]. apply Z.mul_le_mono_nonneg_r; lia.
Qed.

Lemma disc_mono c a a' : linear_pos c -> a <= a' -> disc c a <= disc c a'.
Proof.
  intros [_ (Hsn & Hsd & Hpd)] Ha. unfold disc.
  assert (2 * slope_num c * a * ONE / slope_den c <= 2 * slope_num c * a' * ONE / slope_den c).
  { apply Z.div_le_mono; [lia |]. unfold ONE. nia. }
  lia.
Qed.

(** The result of [b_value_with_amt_a_locked], when there is one. *)
Lemma b_value_val c a up b : linear_pos c -> 0 <= a < 2 ^ 65 ->
  b_value_with_amt_a_locked c (a * ONE) up = Val b ->
  exists r, dfs_sqrt_u64 (disc c a) up = Val r /\ b = b_of_root c r /\ 0 <= r < 2 ^ 126 /\ 0 <= b < 2 ^ 190.
Proof.
  intros Hc Ha H. rewrite b_value_closed in H by assumption. inv.
  match goal with H : dfs_sqrt_u64 _ _ = Val ?r |- _ => exists r; pose proof H as H';
    apply root_bounds in H'; [| apply disc_bounds; assumption] end.
  repeat split; try assumption; try lia; apply b_of_root_bounds; assumption.
Qed.

Lemma b_value_mono c a a' up b b' : linear_pos c -> 0 <= a -> a <= a' -> a' < 2 ^ 65 ->
  b_value_with_amt_a_locked c (a * ONE) up = Val b ->
  b_value_with_amt_a_locked c (a' * ONE) up = Val b' -> b <= b'.
Proof.
  intros Hc Ha Hle Ha' H H'.
  apply b_value_val in H; [| assumption | lia]. apply b_value_val in H'; [| assumption | lia].
  destruct H as (r & Hr & -> & _). destruct H' as (r' & Hr' & -> & _).
  apply b_of_root_mono; [assumption |].
  pose proof (disc_bounds c a Hc ltac:(lia)). pose proof (disc_bounds c a' Hc ltac:(lia)).
  eapply dfs_sqrt_mono; [.. | exact Hr | exact Hr'];
    [unfold is_u256, u256_max; lia | unfold is_u256, u256_max; lia | apply disc_mono; assumption].
Qed.

(** Rounded up is at least rounded down. *)
Lemma sqrt_down_le_up x r r' : is_u256 x ->
  dfs_sqrt_u64 x false = Val r -> dfs_sqrt_u64 x true = Val r' -> r <= r'.
Proof.
  intros Hx H H'. apply dfs_sqrt_down_spec in H; [| exact Hx]. apply dfs_sqrt_up_spec in H'; [| exact Hx].
  apply sq_le_inv; lia.
Qed.

Lemma b_value_down_le_up c a b b' : linear_pos c -> 0 <= a < 2 ^ 65 ->
  b_value_with_amt_a_locked c (a * ONE) false = Val b ->
  b_value_with_amt_a_locked c (a * ONE) true = Val b' -> b <= b'.
Proof.
  intros Hc Ha H H'. apply b_value_val in H; [| assumption | lia].
  apply b_value_val in H'; [| assumption | lia].
  destruct H as (r & Hr & -> & _). destruct H' as (r' & Hr' & -> & _).
  apply b_of_root_mono; [assumption |].
  pose proof (disc_bounds c a Hc ltac:(lia)).
  eapply sqrt_down_le_up; [| exact Hr | exact Hr']. unfold is_u256, u256_max; lia.
Qed.

(** Rounding down always succeeds; rounding up succeeds or panics. *)
Lemma b_value_down_total c a : linear_pos c -> 0 <= a < 2 ^ 65 ->
  exists b, b_value_with_amt_a_locked c (a * ONE) false = Val b.
Proof.
  intros Hc Ha. rewrite b_value_closed by assumption.
  pose proof (disc_bounds c a Hc Ha).
  destruct (dfs_sqrt_total (disc c a) false) as [[r ->] | (_ & E & _)].
  - unfold is_u256, u256_max; lia.
  - eexists. reflexivity.
  - discriminate.
Qed.

Lemma b_value_up_total c a : linear_pos c -> 0 <= a < 2 ^ 65 ->
  b_value_with_amt_a_locked c (a * ONE) true <> Non.
Proof.
  intros Hc Ha. rewrite b_value_closed by assumption.
  pose proof (disc_bounds c a Hc Ha).
  destruct (dfs_sqrt_total (disc c a) true) as [[r ->] | (-> & _)].
  - unfold is_u256, u256_max; lia.
  - discriminate.
  - discriminate.
Qed.

(** ** Area under the price line *)
Definition area (c : linear_curve) (b : Z) : Z :=
  (slope_num c * b * b + HALF) / ONE / slope_den c / 2 + price_num c * b / price_den c.

Lemma area_nonneg c b : linear_pos c -> 0 <= b -> 0 <= area c b.
Proof.
  intros [Hw (Hsn & Hsd & Hpd)] Hb. unfold linear_wf, is_u64 in Hw. unfold area.
  assert (0 <= (slope_num c * b * b + HALF) / ONE / slope_den c / 2).
  { apply Z.div_pos; [| lia]. apply Z.div_pos; [| lia]. apply Z.div_pos; [| reflexivity].
    unfold HALF. nia. }
  assert (0 <= price_num c * b / price_den c) by (apply Z.div_pos; [nia | lia]). lia.
Qed.

Lemma area_mono c b b' : linear_pos c -> 0 <= b <= b' -> area c b <= area c b'.
Proof.
  intros [Hw (Hsn & Hsd & Hpd)] Hb. unfold linear_wf, is_u64 in Hw. unfold area.
  assert ((slope_num c * b * b + HALF) / ONE / slope_den c / 2 <=
          (slope_num c * b' * b' + HALF) / ONE / slope_den c / 2).
  { apply Z.div_le_mono; [lia |]. apply Z.div_le_mono; [lia |]. apply Z.div_le_mono; [reflexivity |].
    assert (slope_num c * b <= slope_num c * b') by nia. nia. }
  assert (price_num c * b / price_den c <= price_num c * b' / price_den c).
  { apply Z.div_le_mono; [lia | nia]. }
  lia.
Qed.

Lemma area_defined c b : linear_pos c -> 0 <= b < 2 ^ 126 -> slope_num c * b * b < 2 ^ 252 ->
  amt_a_locked_at_b_value c b = Val (area c b).
Proof.
  intros [Hw (Hsn & Hsd & Hpd)] Hb Hq. unfold linear_wf, is_u64, u64_max in Hw.
  destruct c as [sn sd pn pd]. unfold amt_a_locked_at_b_value, area.
  cbn [slope_num slope_den price_num price_den] in *.
  rewrite !dfs_new_val by (unfold ONE, u256_max; lia). cbn [obind].
  rewrite dfs_mul_whole_l by (unfold ONE, HALF, u256_max; nia). cbn [obind].
  rewrite dfs_mul_defined by (unfold ONE, HALF, u256_max; nia). cbn [obind].
  rewrite (Z.mul_comm b sn).
  assert (H1 : 0 <= (sn * b * b + HALF) / ONE < 2 ^ 193).
  { split; [apply Z.div_pos; unfold HALF, ONE; nia |].
    apply Z.div_lt_upper_bound; unfold HALF, ONE; nia. }
  rewrite dfs_div_whole by (unfold ONE, HALF, u256_max in *; lia). cbn [obind].
  assert (H2 : 0 <= (sn * b * b + HALF) / ONE / sd < 2 ^ 193).
  { split; [apply Z.div_pos; lia |]. apply Z.div_lt_upper_bound; nia. }
  rewrite dfs_div_whole by (unfold ONE, HALF, u256_max in *; lia). cbn [obind].
  rewrite dfs_mul_whole_l by (unfold ONE, HALF, u256_max; nia). cbn [obind].
  rewrite dfs_div_whole by (unfold ONE, HALF, u256_max; nia). cbn [obind].
  rewrite (Z.mul_comm b pn).
  unfold dfs_add. apply add_in_eq.
  assert ((sn * b * b + HALF) / ONE / sd / 2 < 2 ^ 193)
    by (apply Z.div_lt_upper_bound; lia).
  assert (pn * b / pd < 2 ^ 190) by (apply Z.div_lt_upper_bound; nia).
  unfold u256_max. lia.
Qed.

(** Outside the range of [area_defined] the code's area (if it is computed at
    all) is larger than any amount that matters. *)
Lemma dfs_mul_lower x y z : is_u256 x -> is_u256 y -> dfs_mul x y = Val z ->
  2 * (x * y) < 2 * z * ONE + ONE \/
  (u256_max < x * y /\ x * y < z * ONE + Z.min x y * ONE).
Proof.
  intros Hx Hy H. unfold is_u256 in *. destruct (Z.le_gt_cases (x * y) u256_max).
  - left. apply dfs_mul_normal in H; [lia | nia].
  - right. apply dfs_mul_overflow in H; unfold is_u256; try assumption. lia.
Qed.

Lemma dfs_div_lower x y z : 0 <= x -> 0 < y -> dfs_div x y = Val z ->
  x * ONE < (z + 1) * y \/ (u256_max < x * ONE /\ x * ONE < (z + ONE) * y).
Proof.
  intros Hx Hy H. pose proof ONE_pos. destruct (Z.le_gt_cases (x * ONE) u256_max).
  - left. apply dfs_div_normal in H; [unfold HALF in *; lia | assumption | nia].
  - right. apply dfs_div_overflow in H; try assumption. unfold HALF, ONE in *. lia.
Qed.

Lemma dfs_mul_range x y z : 0 <= x -> 0 <= y -> dfs_mul x y = Val z -> is_u256 z.
Proof.
  intros Hx Hy H. unfold is_u256. unfold dfs_mul in H. destruct (mul_in u256_max x y) eqn:E.
  - inv. assert (0 <= x * y) by nia. pose proof (div_bounds (x * y + HALF) ONE ONE_pos).
    assert (0 <= (x * y + HALF) / ONE) by (apply Z.div_pos; unfold HALF, ONE; lia).
    unfold ONE in *. lia.
  - destruct (y <=? x); inv; split; try assumption; apply Z.mul_nonneg_nonneg; try assumption;
      apply Z.div_pos; unfold ONE; lia.
  - discriminate.
Qed.

Lemma dfs_div_range x y z : 0 <= x -> 0 < y -> dfs_div x y = Val z -> is_u256 z.
Proof.
  intros Hx Hy H. unfold is_u256. unfold dfs_div in H. destruct (y =? 0); [discriminate |].
  destruct (mul_in u256_max x ONE) eqn:E.
  - inv. pose proof (div_bounds (x * ONE + HALF) y Hy).
    assert (0 <= (x * ONE + HALF) / y) by (apply Z.div_pos; unfold HALF, ONE; lia). nia.
  - inv. split; [| assumption]. apply Z.mul_nonneg_nonneg; [| unfold ONE; lia].
    apply Z.div_pos; unfold HALF; lia.
  - discriminate.
Qed.

Lemma area_large c b v : linear_pos c -> is_u256 b -> 2 ^ 252 <= slope_num c * b * b ->
  amt_a_locked_at_b_value c b = Val v -> 2 ^ 66 * ONE < v.
Proof.
  intros [Hw (Hsn & Hsd & Hpd)] Hb Hq H. unfold linear_wf, is_u64, u64_max in Hw.
  destruct c as [sn sd pn pd]. unfold amt_a_locked_at_b_value in H.
  cbn [slope_num slope_den price_num price_den] in *.
  rewrite !dfs_new_val in H by (unfold ONE, u256_max; lia). cbn [obind] in H.
  apply obind_val in H. destruct H as (m1 & H1 & H).
  apply obind_val in H. destruct H as (m2 & H2 & H).
  apply obind_val in H. destruct H as (m3 & H3 & H).
  apply obind_val in H. destruct H as (hf & H4 & H).
  apply obind_val in H. destruct H as (p1 & H5 & H).
  apply obind_val in H. destruct H as (p2 & H6 & H).
  unfold dfs_add in H. apply add_in_val in H. destruct H as [-> _].
  assert (Hb' := Hb). unfold is_u256, u256_max in Hb'.
  assert (Rsn : is_u256 (sn * ONE)) by (unfold is_u256, u256_max, ONE; lia).
  assert (R1 : is_u256 m1) by (apply dfs_mul_range in H1; [assumption | unfold ONE; lia | lia]).
  assert (R2 : is_u256 m2) by (apply dfs_mul_range in H2; [assumption | apply R1 | lia]).
  assert (R3 : is_u256 m3) by (apply dfs_div_range in H3; [assumption | apply R2 | unfold ONE; lia]).
  assert (R4 : is_u256 hf) by (apply dfs_div_range in H4; [assumption | apply R3 | unfold ONE; lia]).
  assert (R5 : is_u256 p1) by (apply dfs_mul_range in H5; [assumption | unfold ONE; lia | lia]).
  assert (R6 : is_u256 p2) by (apply dfs_div_range in H6; [assumption | apply R5 | unfold ONE; lia]).
  clear H5 H6. unfold is_u256, u256_max in R1, R2, R3, R4, R5, R6.
  (* m1 *)
  assert (L1 : sn * b <= 2 * m1).
  { apply dfs_mul_lower in H1; try assumption. destruct H1 as [H1 | [H1 H1']].
    - unfold ONE in H1. nia.
    - unfold ONE, u256_max in *.
      assert (2 ^ 132 <= b) by nia.
      rewrite Z.min_l in H1' by lia. nia. }
  assert (L1b : 2 ^ 251 <= m1 * b) by nia.
  (* m2 *)
  assert (L2 : 2 ^ 251 - ONE <= m2 * ONE).
  { apply dfs_mul_lower in H2; [| unfold is_u256, u256_max; lia | assumption].
    destruct H2 as [H2 | [H2 H2']]; [unfold ONE in *; lia |].
    unfold ONE, u256_max in *. destruct (Z.le_gt_cases m1 b) as [Hm | Hm].
    - rewrite Z.min_l in H2' by lia.
      assert (2 ^ 128 <= b). { destruct (Z.le_gt_cases (2 ^ 128) b); [assumption |]. nia. }
      nia.
    - rewrite Z.min_r in H2' by lia.
      assert (2 ^ 128 <= m1). { destruct (Z.le_gt_cases (2 ^ 128) m1); [assumption |]. nia. }
      nia. }
  (* m3 *)
  assert (L3 : (2 ^ 187 - ONE) <= (m3 + 1) * ONE).
  { apply dfs_div_lower in H3; [| lia | unfold ONE; lia]. unfold ONE, u256_max in *.
    destruct H3 as [H3 | [H3 H3']]; nia. }
  (* half *)
  assert (L4 : m3 < 2 * hf + 2 \/ 2 ^ 190 <= hf).
  { apply dfs_div_lower in H4; [| lia | unfold ONE; lia]. unfold ONE, u256_max in *.
    destruct H4 as [H4 | [H4 H4']]; [left; lia | right; lia]. }
  unfold ONE in *. lia.
Qed.

Lemma area_val c b v : linear_pos c -> is_u256 b -> v <= 2 ^ 66 * ONE ->
  amt_a_locked_at_b_value c b = Val v -> v = area c b /\ 0 <= b < 2 ^ 126 /\ slope_num c * b * b < 2 ^ 252.
Proof.
  intros Hc Hb Hv H. destruct (Z.lt_ge_cases (slope_num c * b * b) (2 ^ 252)) as [Hlt | Hge].
  - assert (Hb126 : 0 <= b < 2 ^ 126).
    { unfold is_u256 in Hb. split; [lia |]. destruct (Z.lt_ge_cases b (2 ^ 126)); [assumption |].
      destruct Hc as [_ (Hsn & _)]. assert (2 ^ 252 <= b * b) by nia. nia. }
    rewrite area_defined in H by assumption. injection H as <-. auto.
  - apply area_large in H; try assumption. lia.
Qed.

(** ** The two swaps in closed form *)
Definition b_up (c : linear_curve) (a : Z) : outcome Z := b_value_with_amt_a_locked c (a * ONE) true.
Definition b_down (c : linear_curve) (a : Z) : outcome Z := b_value_with_amt_a_locked c (a * ONE) false.

(** The sold-out purchase: cost of all remaining tokens, rounded to nearest. *)
Definition sold_out_cost (c : linear_curve) (a b0 dest cost : Z) : Prop :=
  a * ONE <= area c (b0 + dest * ONE) /\
  2 * cost * ONE - ONE <= 2 * (area c (b0 + dest * ONE) - a * ONE) < 2 * cost * ONE + ONE /\
  0 <= b0 + dest * ONE < 2 ^ 126 /\
  slope_num c * (b0 + dest * ONE) * (b0 + dest * ONE) < 2 ^ 252.

Lemma max_remaining_val c a b0 s dest src dst :
  linear_pos c -> is_u64 a -> is_u64 s -> is_u64 dest -> 0 <= b0 < 2 ^ 190 ->
  maximum_a_remaining c (a * ONE) b0 s dest = Val (src, dst) <->
  dst = dest /\ 0 <= src <= s /\ sold_out_cost c a b0 dest src.
Proof.
  intros Hc Ha Hs Hd Hb. unfold is_u64, u64_max in *. unfold maximum_a_remaining.
  rewrite dfs_new_val by (unfold ONE, u256_max; lia). cbn [obind].
  unfold dfs_add at 1. rewrite add_in_eq by (unfold ONE, u256_max; lia). cbn [obind].
  assert (Hbu : is_u256 (b0 + dest * ONE)) by (unfold is_u256, u256_max, ONE; lia).
  split; intros H.
  - inv. unfold dfs_sub in *. inv.
    match goal with H : dfs_to_imprecise ?x = Val _ |- _ =>
      apply dfs_to_imprecise_spec in H; [destruct H as [Hn Hr] |] end; cycle 1.
    { match goal with H : amt_a_locked_at_b_value _ _ = Val ?v |- _ =>
        assert (Hv : is_u256 v) end.
      { match goal with H : amt_a_locked_at_b_value _ _ = Val ?v |- _ =>
          unfold amt_a_locked_at_b_value in H end. inv. unfold dfs_add in *. inv.
        unfold is_u256. split; [unfold ONE in *; lia | assumption]. }
      unfold is_u256 in *. unfold ONE in *. lia. }
    unfold is_u128 in Hn.
    match goal with H : (if ?x <=? s then _ else _) = Val _ |- _ =>
      destruct (Z.leb_spec x s); [| discriminate H] end. inv.
    split; [reflexivity |]. split; [lia |].
    match goal with H : amt_a_locked_at_b_value _ _ = Val ?v |- _ =>
      apply area_val in H; [destruct H as (-> & Hb1 & Hb2) | assumption | assumption | unfold ONE in *; lia] end.
    repeat split; assumption || lia.
  - destruct H as (-> & Hsrc & (H1 & H2 & H3 & H4)).
    rewrite area_defined by assumption. cbn [obind].
    unfold dfs_sub. rewrite csub_eq by assumption. cbn [obind].
    assert (E : dfs_to_imprecise (area c (b0 + dest * ONE) - a * ONE) = Val src).
    { apply dfs_to_imprecise_spec.
      - unfold is_u256, u256_max. unfold ONE in *. lia.
      - split; [unfold is_u128, u128_max; lia | lia]. }
    rewrite E. cbn [obind]. destruct (Z.leb_spec src s); [reflexivity | lia].
Qed.

Lemma max_remaining_no_panic c a b0 s dest : maximum_a_remaining c a b0 s dest <> Panic.
Proof.
  unfold maximum_a_remaining, amt_a_locked_at_b_value, dfs_new, dfs_add, dfs_sub. no_panic.
Qed.

Lemma swap_a_to_b_val c s a dest src dst :
  linear_pos c -> is_u64 a -> is_u64 s -> is_u64 dest ->
  swap_a_to_b c s a dest = Val (src, dst) <->
  exists b0, b_up c a = Val b0 /\
    ((dst = dest /\ 0 <= src <= s /\ sold_out_cost c a b0 dest src) \/
     (src = s /\ (forall cost, 0 <= cost <= s -> ~ sold_out_cost c a b0 dest cost) /\
      exists b1, b_down c (a + s) = Val b1 /\ b0 <= b1 /\ dst = (b1 - b0) / ONE /\ dst <= u128_max)).
Proof.
  intros Hc Ha Hs Hd. assert (Ha' := Ha). assert (Hs' := Hs). unfold is_u64, u64_max in Ha', Hs'.
  unfold swap_a_to_b, b_up, b_down.
  rewrite dfs_new_val by (unfold ONE, u256_max; lia). cbn [obind].
  destruct (b_value_with_amt_a_locked c (a * ONE) true) as [b0 | |] eqn:E0; cbn [obind]; cycle 1.
  { split; [discriminate | intros (b & Hb & _); discriminate]. }
  { split; [discriminate | intros (b & Hb & _); discriminate]. }
  assert (Hb0 : 0 <= b0 < 2 ^ 190).
  { apply b_value_val in E0; [| assumption | lia]. destruct E0 as (r & _ & _ & _ & ?). assumption. }
  assert (Hmax := fun x y => max_remaining_val c a b0 s dest x y Hc Ha Hs Hd Hb0).
  destruct (maximum_a_remaining c (a * ONE) b0 s dest) as [[x y] | |] eqn:E1.
  - destruct (Hmax x y) as [Hm _]. destruct (Hm eq_refl) as (-> & Hx & Hso).
    split; intros H.
    + inv. exists b0. split; [reflexivity |]. left. auto.
    + destruct H as (b & Hb & [(-> & Hsrc & Hso') | (_ & Hno & _)]); inv.
      * f_equal. f_equal. destruct Hso as (_ & Hso & _). destruct Hso' as (_ & Hso' & _).
        unfold ONE in *. lia.
      * exfalso. exact (Hno x Hx Hso).
  - assert (Hno : forall cost, 0 <= cost <= s -> ~ sold_out_cost c a b0 dest cost).
    { intros cost Hcost Hso. destruct (Hmax cost dest) as [_ Hm]. discriminate Hm; auto. }
    rewrite dfs_new_val by (unfold ONE, u256_max; lia). cbn [obind].
    unfold dfs_add. rewrite add_in_eq by (unfold ONE, u256_max; lia). cbn [obind].
    replace (a * ONE + s * ONE) with ((a + s) * ONE) by ring.
    destruct (b_value_down_total c (a + s) Hc ltac:(lia)) as [b1 E2]. rewrite E2. cbn [obind].
    assert (Hb1 : 0 <= b1 < 2 ^ 190).
    { apply b_value_val in E2; [| assumption | lia]. destruct E2 as (r & _ & _ & _ & ?). assumption. }
    unfold dfs_sub, csub. destruct (Z.leb_spec b0 b1) as [Hle | Hgt]; cbn [obind].
    + destruct (dfs_floor_spec (b1 - b0)) as (q & Hq & Hqb); [unfold is_u256, u256_max; lia |].
      assert (q = (b1 - b0) / ONE).
      { apply Z.div_unique with (r := b1 - b0 - q * ONE); [left; lia | lia]. }
      rewrite Hq. cbn [obind].
      assert (Hq0 : 0 <= q) by (unfold ONE in *; lia).
      assert (E3 : forall n, dfs_to_imprecise (q * ONE) = Val n <-> n = q /\ q <= u128_max).
      { intros n. rewrite dfs_to_imprecise_spec by (unfold is_u256, u256_max, ONE in *; lia).
        unfold is_u128, u128_max, ONE. lia. }
      split; intros H'.
      * inv. match goal with H : dfs_to_imprecise _ = Val _ |- _ => apply E3 in H; destruct H as [-> Hqm] end.
        exists b0. split; [reflexivity |]. right. split; [reflexivity |]. split; [assumption |].
        exists b1. auto.
      * destruct H' as (b & Hb & [(_ & Hsrc & Hso) | (-> & _ & (b2 & Hb2 & _ & -> & Hqm))]); inv.
        -- exfalso. exact (Hno src Hsrc Hso).
        -- destruct (E3 ((b2 - b) / ONE)) as [_ E4]. rewrite E4 by auto. reflexivity.
    + split; [discriminate |].
      intros (b & Hb & [(_ & Hsrc & Hso) | (-> & _ & (b2 & Hb2 & Hle & _))]); inv.
      * exfalso. exact (Hno src Hsrc Hso).
      * lia.
  - exfalso. exact (max_remaining_no_panic _ _ _ _ _ E1).
Qed.

(** Position after selling [n] of the tokens up to [b0], rounded up to a whole. *)
Definition end_position (b0 n : Z) : Z := cdivup (b0 - n * ONE) ONE.

Lemma swap_b_to_a_val c n ssrc a src dst :
  linear_pos c -> is_u64 a -> is_u64 n ->
  swap_b_to_a c n ssrc a = Val (src, dst) <->
  exists b0, b_up c a = Val b0 /\
    ((b0 < n * ONE /\ 2 * src * ONE - ONE <= 2 * b0 < 2 * src * ONE + ONE /\ dst = a) \/
     (n * ONE <= b0 /\ src = n /\
      area c (end_position b0 n * ONE) <= a * ONE /\
      0 <= end_position b0 n * ONE < 2 ^ 126 /\
      slope_num c * (end_position b0 n * ONE) * (end_position b0 n * ONE) < 2 ^ 252 /\
      dst = (a * ONE - area c (end_position b0 n * ONE)) / ONE)).
Proof.
  intros Hc Ha Hn. unfold is_u64, u64_max in Ha, Hn. unfold swap_b_to_a, b_up.
  rewrite !dfs_new_val by (unfold ONE, u256_max; lia). cbn [obind].
  destruct (b_value_with_amt_a_locked c (a * ONE) true) as [b0 | |] eqn:E0; cbn [obind]; cycle 1.
  { split; [discriminate | intros (b & Hb & _); discriminate]. }
  { split; [discriminate | intros (b & Hb & _); discriminate]. }
  assert (Hb0 : 0 <= b0 < 2 ^ 190).
  { apply b_value_val in E0; [| assumption | lia]. destruct E0 as (r & _ & _ & _ & ?). assumption. }
  unfold dfs_unsigned_sub. destruct (Z.leb_spec (n * ONE) b0) as [Hle | Hgt].
  - destruct (dfs_ceiling_spec (b0 - n * ONE)) as [Hce _].
    { unfold is_u256, u256_max, ONE in *; lia. }
    destruct Hce as (q & Hq & Hqb); [unfold u256_max, ONE in *; lia |]. rewrite Hq. cbn [obind].
    assert (Eq : q = end_position b0 n).
    { apply cdivup_unique; [exact ONE_pos | lia]. }
    subst q. split; intros H.
    + inv. unfold dfs_sub in *. inv.
      match goal with H : amt_a_locked_at_b_value _ _ = Val ?v |- _ =>
        apply area_val in H; [destruct H as (-> & Hb1 & Hb2) | assumption
          | unfold is_u256, u256_max, ONE in *; lia | unfold ONE in *; lia] end.
      exists b0. split; [reflexivity |]. right. split; [assumption |].
      split; [reflexivity |]. split; [assumption |]. split; [assumption |]. split; [assumption |].
      pose proof (area_nonneg c (end_position b0 src * ONE) Hc ltac:(lia)) as Hnn.
      match goal with H : dfs_floor ?x = Val _ |- _ =>
        destruct (dfs_floor_spec x) as (k & Hk & Hkb);
        [unfold is_u256, u256_max, ONE in *; lia | rewrite Hk in H; injection H as <-] end.
      match goal with H : dfs_to_imprecise _ = Val _ |- _ =>
        apply dfs_to_imprecise_spec in H; [destruct H as [_ Hr] | unfold is_u256, u256_max, ONE in *; lia] end.
      apply Z.div_unique with (r := a * ONE - area c (end_position b0 src * ONE) - k * ONE);
        [left; lia |]. unfold ONE in *. lia.
    + destruct H as (b & Hb & [(Hlt & _) | (_ & -> & Har & Hb1 & Hb2 & ->)]); inv; [lia |].
      rewrite area_defined by assumption. cbn [obind]. unfold dfs_sub.
      rewrite csub_eq by assumption. cbn [obind].
      pose proof (area_nonneg c (end_position b n * ONE) Hc ltac:(lia)) as Hnn.
      set (x := a * ONE - area c (end_position b n * ONE)) in *.
      destruct (dfs_floor_spec x) as (k & Hk & Hkb); [unfold is_u256, u256_max, ONE in *; lia |].
      rewrite Hk. cbn [obind].
      assert (E3 : dfs_to_imprecise (k * ONE) = Val k).
      { apply dfs_to_imprecise_spec; unfold is_u256, is_u128, u256_max, u128_max, ONE in *; lia. }
      rewrite E3. cbn [obind]. f_equal. f_equal.
      apply Z.div_unique with (r := x - k * ONE); [left; lia | lia].
  - destruct (dfs_ceiling_spec (n * ONE - b0)) as [Hce _].
    { unfold is_u256, u256_max, ONE in *; lia. }
    destruct Hce as (q & Hq & Hqb); [unfold u256_max, ONE in *; lia |]. rewrite Hq. cbn [obind].
    split; intros H.
    + inv. match goal with H : dfs_to_imprecise _ = Val _ |- _ =>
        apply dfs_to_imprecise_spec in H; [destruct H as [_ Hr] | unfold is_u256, u256_max, ONE in *; lia] end.
      exists b0. split; [reflexivity |]. left. auto.
    + destruct H as (b & Hb & [(_ & Hr & ->) | (Hle & _)]); inv; [| lia].
      assert (E3 : dfs_to_imprecise b = Val src).
      { apply dfs_to_imprecise_spec; [unfold is_u256, u256_max; lia |].
        split; [| assumption]. unfold is_u128, u128_max, ONE in *. lia. }
      rewrite E3. reflexivity.
Qed.
