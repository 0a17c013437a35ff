(** The randomized test of sales on the linear curve. *)
From Verif Require Import Ints Tactics SplMath DfsPrecise DfsFacts LinearCurve SwapCurve Spec CurveFacts LinearFacts LinearProps
  RandomTests TestSpec TestFacts TestLinear.

Lemma sell_pos : linear_pos test_curve_sell.
Proof. vm_compute. repeat split; congruence. Qed.

Lemma value_124' c a b p : linear_pos c -> 0 <= a < 2 ^ 65 -> 0 <= b <= 2 ^ 65 -> b_down c a = Val p ->
  2 ^ 123 <= p + b * ONE < 2 ^ 124 ->
  linear_normalized_value c a b = Val ((p + b * ONE) / 2 ^ 92).
Proof.
  intros Hc Ha Hb Hp Ht. unfold linear_normalized_value. unfold b_down in Hp.
  rewrite dfs_new_val by (unfold ONE, u256_max; lia). cbn [obind]. rewrite Hp. cbn [obind].
  rewrite dfs_new_val by (unfold ONE, u256_max; lia). cbn [obind].
  unfold dfs_add. rewrite add_in_eq by (unfold u256_max; lia). cbn [obind].
  set (t := p + b * ONE) in *.
  assert (L : Z.log2 t = 123) by (apply Z.log2_unique; [lia |]; change (2 ^ Z.succ 123) with (2 ^ 124); exact Ht).
  unfold bits, shr256. destruct (Z.eqb_spec t 0); [lia |]. rewrite L. reflexivity.
Qed.

Lemma sell_position_small a b : 0 <= a <= u64_max -> b_up test_curve_sell a = Val b -> 0 <= b <= 7 * 10 ^ 33.
Proof.
  intros Ha H. destruct (b_up test_curve_sell u64_max) as [m | |] eqn:E; [| vm_compute in E; discriminate ..].
  assert (b <= m).
  { eapply (b_value_mono test_curve_sell a u64_max); [exact sell_pos | lia | lia | reflexivity | exact H | exact E]. }
  assert (m <= 7 * 10 ^ 33) by (vm_compute in E; injection E as <-; vm_compute; discriminate).
  pose proof (b_value_val _ a true b sell_pos) as V. unfold u64_max in Ha.
  destruct (V ltac:(lia) H) as (_ & _ & _ & _ & Hb). lia.
Qed.

(** The position of a reserve that covers [e] tokens. *)
Lemma sell_position_covers a e p : 0 <= a <= u64_max -> 0 <= e -> e * e * 500000 <= a * ONE ->
  b_down test_curve_sell a = Val p -> e * ONE * 2 ^ 31 <= (p + 10 ^ 12) * (2 ^ 31 + 1).
Proof.
  intros Ha He L H. unfold u64_max in Ha. apply b_value_val in H; [| exact sell_pos | lia].
  destruct H as (r & Hr & -> & _ & _).
  assert (D : disc test_curve_sell a = a * 2000000).
  { unfold disc, test_curve_sell. cbn [slope_num slope_den price_num price_den].
    replace (0 * 0 * ONE / (1 * 1)) with 0 by reflexivity.
    replace (2 * 1 * a * ONE) with (a * 2000000 * 1000000000000) by (unfold ONE; ring). rewrite Z.div_mul by discriminate. lia. }
  rewrite D in Hr. apply dfs_sqrt_down_spec in Hr; [| unfold is_u256, u256_max; lia].
  destruct Hr as (R0 & _ & R2).
  assert (B : b_of_root test_curve_sell r = r * 10 ^ 12).
  { unfold b_of_root, e_val, test_curve_sell. cbn [slope_num slope_den price_num price_den].
    replace (0 * ONE / 1) with 0 by reflexivity. rewrite Z.sub_0_r, Z.max_r by lia. rewrite Z.div_1_r. reflexivity. }
  rewrite B.
  assert (K : e * 1000000 * 2 ^ 31 <= (r + 1) * (2 ^ 31 + 1)).
  { apply Z.square_le_simpl_nonneg; [lia |].
    eapply Z.le_trans; [| apply Z.lt_le_incl; exact R2].
    replace (e * 1000000 * 2 ^ 31 * (e * 1000000 * 2 ^ 31)) with (e * e * 500000 * (2000000 * (2 ^ 31 * 2 ^ 31))) by ring.
    replace (a * 2000000 * ONE * (2 ^ 31 * 2 ^ 31)) with (a * ONE * (2000000 * (2 ^ 31 * 2 ^ 31))) by ring.
    apply Z.mul_le_mono_nonneg_r; [lia | exact L]. }
  unfold ONE. lia.
Qed.

Lemma sell_area e : 0 <= e -> area test_curve_sell (e * ONE) = e * e * 500000.
Proof.
  intros He. unfold area, test_curve_sell. cbn [slope_num slope_den price_num price_den].
  replace (1 * (e * ONE) * (e * ONE)) with (e * e * ONE * ONE) by ring.
  rewrite Z.div_add_l by discriminate. replace (HALF / ONE) with 0 by reflexivity. rewrite Z.add_0_r.
  replace (0 * (e * ONE) / 1) with 0 by (rewrite Z.mul_0_l; reflexivity).
  replace (e * e * ONE) with (e * e * 500000 * 2 * 1000000000000) by (unfold ONE; ring).
  rewrite Z.add_0_r, !Z.div_mul by discriminate. reflexivity.
Qed.

Lemma linear_sell_test source sd : drawn64 source -> drawn64 sd ->
  sale_value_test (linear_value_swap_b_to_a source sd) (swap_b_to_a test_curve_sell source u64_max sd)
    (linear_normalized_value test_curve_sell) u64_max sd.
Proof.
  intros H1 H2. apply d64 in H1, H2. destruct H1 as (U1 & L1 & M1), H2 as (U2 & L2 & M2).
  unfold linear_value_swap_b_to_a, sale_value_test.
  destruct (swap_b_to_a test_curve_sell source u64_max sd) as [[src dst] | |] eqn:E; cbn [unwrap tbind verdict_of];
    [| right; split; [discriminate | reflexivity] ..].
  left. exists src, dst.
  pose proof E as E'. apply swap_b_to_a_val in E'; try assumption; [| exact sell_pos].
  destruct E' as (b0 & B0 & C). pose proof (sell_position_small sd b0 U2 B0) as P0.
  assert (X : forall a, 0 <= a <= u64_max -> exists p, b_down test_curve_sell a = Val p).
  { intros a Ha. apply b_value_down_total; [exact sell_pos |]. unfold u64_max in *. lia. }
  destruct (X sd U2) as (p & P).
  assert (Hp : 0 <= p <= b0).
  { unfold is_u64, u64_max in *. split.
    - destruct (b_value_val test_curve_sell sd false p sell_pos) as (_ & _ & _ & _ & Hb); [lia | exact P | lia].
    - apply (b_value_down_le_up test_curve_sell sd); [exact sell_pos | lia | exact P | exact B0]. }
  assert (Hpos : 10 ^ 24 <= p).
  { destruct (b_down test_curve_sell 1) as [m | |] eqn:Em; [| vm_compute in Em; discriminate ..].
    assert (m <= p).
    { unfold b_down in Em, P. clear - Em P U2 L2. unfold is_u64, u64_max in U2.
      exact (b_value_mono test_curve_sell 1 sd false m p sell_pos ltac:(lia) L2 ltac:(lia) Em P). }
    assert (10 ^ 24 <= m) by (vm_compute in Em; injection Em as <-; vm_compute; discriminate). lia. }
  assert (Hs : 1 <= src /\ 0 <= dst <= sd /\ src * ONE <= b0 + ONE /\
             exists q, b_down test_curve_sell (sd - dst) = Val q /\ 0 <= q <= p /\
               p - 4 * 10 ^ 24 <= q + src * ONE /\ (dst = 0 -> q = p)).
  { destruct C as [(Hlt & Hr & ->) | (Hle & -> & Ar & Eb & _ & Ed)].
    - assert (1 <= src) by (unfold ONE in *; lia). split; [assumption |].
      split; [unfold is_u64 in *; lia |]. split; [unfold ONE in *; lia |]. exists 0. rewrite Z.sub_diag.
      split; [vm_compute; reflexivity |]. unfold ONE in *. lia.
    - set (e := end_position b0 source) in *.
      assert (E0 : 0 <= e) by (unfold ONE in *; lia).
      rewrite sell_area in Ar, Ed by exact E0.
      assert (Hd : 0 <= dst /\ dst * ONE <= sd * ONE - e * e * 500000 < dst * ONE + ONE).
      { pose proof (Z.div_mod (sd * ONE - e * e * 500000) ONE ltac:(discriminate)).
        pose proof (Z.mod_pos_bound (sd * ONE - e * e * 500000) ONE ltac:(reflexivity)).
        rewrite <- Ed in *. split; [subst dst; apply Z.div_pos; [lia | reflexivity] | lia]. }
      assert (EE : 0 <= e * e) by nia.
      assert (dst <= sd) by (unfold ONE in *; lia).
      split; [lia |]. split; [lia |]. split; [lia |].
      assert (Ua : 0 <= sd - dst <= u64_max) by (unfold is_u64 in *; lia).
      destruct (X _ Ua) as (q & Q). exists q. split; [exact Q |].
      assert (Hq : 0 <= q <= p).
      { unfold is_u64, u64_max in *. split.
        - destruct (b_value_val test_curve_sell (sd - dst) false q sell_pos) as (_ & _ & _ & _ & Hb); [lia | exact Q | lia].
        - eapply (b_value_mono test_curve_sell (sd - dst) sd); [exact sell_pos | .. | exact Q | exact P]; lia. }
      split; [exact Hq |].
      pose proof (sell_position_covers (sd - dst) e q Ua E0 ltac:(lia) Q) as K.
      pose proof (cdivup_spec (b0 - source * ONE) ONE ltac:(reflexivity)) as Ce. fold (end_position b0 source) in Ce. fold e in Ce.
      split; [unfold ONE in *; lia |]. intros Z0. subst dst. rewrite Z0, Z.sub_0_r in Q. congruence. }
  destruct Hs as (S1 & D & Sb & q & Q & Hq & Fall & Same).
  exists ((p + u64_max * ONE) / 2 ^ 92), ((q + (u64_max + src) * ONE) / 2 ^ 92).
  unfold is_u64, u64_max in *.
  assert (T0 : 2 ^ 123 <= p + (2 ^ 64 - 1) * ONE < 2 ^ 124) by (unfold ONE; lia).
  assert (T1 : 2 ^ 123 <= q + (2 ^ 64 - 1 + src) * ONE < 2 ^ 124) by (unfold ONE in *; lia).
  assert (V0 : linear_normalized_value test_curve_sell sd (2 ^ 64 - 1) = Val ((p + (2 ^ 64 - 1) * ONE) / 2 ^ 92))
    by (apply value_124'; [exact sell_pos | lia | lia | exact P | exact T0]).
  assert (V1 : linear_normalized_value test_curve_sell (sd - dst) (2 ^ 64 - 1 + src) =
             Val ((q + (2 ^ 64 - 1 + src) * ONE) / 2 ^ 92))
    by (apply value_124'; [exact sell_pos | lia | unfold ONE in *; lia | exact Q | exact T1]).
  split; [reflexivity |]. split; [exact V0 |]. split; [exact V1 |].
  set (x := p + (2 ^ 64 - 1) * ONE) in *. set (y := q + (2 ^ 64 - 1 + src) * ONE) in *.
  assert (F : x - 4 * 10 ^ 24 <= y) by (unfold x, y; lia).
  assert (W : x / 2 ^ 92 - 1 <= y / 2 ^ 92 /\ 0 <= x / 2 ^ 92 /\ y / 2 ^ 92 < 2 ^ 32).
  { pose proof (Z.div_mod x (2 ^ 92) ltac:(discriminate)). pose proof (Z.mod_pos_bound x (2 ^ 92) ltac:(reflexivity)).
    pose proof (Z.div_mod y (2 ^ 92) ltac:(discriminate)). pose proof (Z.mod_pos_bound y (2 ^ 92) ltac:(reflexivity)). lia. }
  split; [lia |].
  destruct (Z.ltb_spec 0 dst) as [Dp | Dn].
  2: { assert (dst = 0) by lia. specialize (Same ltac:(assumption)).
       rewrite (proj2 (Z.leb_le _ _)); [reflexivity |]. apply Z.div_le_mono; [reflexivity |]. unfold x, y, ONE. lia. }
  unfold check_curve_value_from_swap.
  change (swap_without_fees (LinearPrice test_curve_sell) source (2 ^ 64 - 1) sd BtoA) with
    (let? (src, dst) := swap_b_to_a test_curve_sell source (2 ^ 64 - 1) sd in
     let? src' := map_zero_to_none src in let? dst' := map_zero_to_none dst in Val (src', dst')).
  rewrite E. cbn [obind]. unfold map_zero_to_none.
  destruct (Z.eqb_spec src 0); [lia |]. destruct (Z.eqb_spec dst 0); [lia |]. cbn [obind unwrap tbind in_order].
  change (normalized_value (LinearPrice test_curve_sell)) with (linear_normalized_value test_curve_sell).
  rewrite V0. cbn [unwrap tbind]. rewrite add_in_eq by (unfold u128_max, ONE in *; lia). rewrite csub_eq by lia. cbn [unwrap tbind].
  rewrite V1. cbn [unwrap tbind].
  destruct (Z.leb_spec (x / 2 ^ 92) (y / 2 ^ 92)) as [M | M]; [| reflexivity].
  cbn [assert tbind]. unfold spl_sub. rewrite csub_eq by exact M. cbn [unwrap tbind].
  unfold spl_to_imprecise, SPL_HALF, SPL_ONE.
  rewrite add_in_eq by (unfold u256_max; lia). cbn [obind]. rewrite cdiv_eq by discriminate. cbn [obind].
  rewrite Z.div_small by lia. reflexivity.
Qed.
