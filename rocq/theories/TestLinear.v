(** The randomized test of purchases on the linear curve. *)
From Verif Require Import Ints Tactics SplMath DfsPrecise DfsFacts LinearCurve SwapCurve Spec CurveFacts LinearFacts LinearProps
  RandomTests TestSpec TestFacts.

Lemma buy_pos : linear_pos test_curve_buy.
Proof. vm_compute. repeat split; congruence. Qed.

(** Holdings of 124 bits are reported as their highest 32. *)
Lemma value_124 c a b p : linear_pos c -> 0 <= a < 2 ^ 65 -> 0 <= b <= u64_max -> b_down c a = Val p ->
  2 ^ 123 <= p + b * ONE < 2 ^ 124 ->
  linear_normalized_value c a b = Val ((p + b * ONE) / 2 ^ 92).
Proof.
  intros Hc Ha Hb Hp Ht. unfold linear_normalized_value. unfold u64_max in *. unfold b_down in Hp.
  rewrite dfs_new_val by (unfold ONE, u256_max; lia). cbn [obind]. rewrite Hp. cbn [obind].
  rewrite dfs_new_val by (unfold ONE, u256_max; lia). cbn [obind].
  unfold dfs_add. rewrite add_in_eq by (unfold u256_max; lia). cbn [obind].
  set (t := p + b * ONE) in *.
  assert (L : Z.log2 t = 123) by (apply Z.log2_unique; [lia |]; change (2 ^ Z.succ 123) with (2 ^ 124); exact Ht).
  unfold bits, shr256. destruct (Z.eqb_spec t 0); [lia |]. rewrite L. reflexivity.
Qed.

Lemma buy_position_small a b : 0 <= a <= u64_max -> b_up test_curve_buy a = Val b -> 0 <= b <= 2 * 10 ^ 36.
Proof.
  intros Ha H. destruct (b_up test_curve_buy u64_max) as [m | |] eqn:E; [| vm_compute in E; discriminate ..].
  assert (b <= m).
  { eapply (b_value_mono test_curve_buy a u64_max); [exact buy_pos | lia | lia | reflexivity | exact H | exact E]. }
  assert (m <= 2 * 10 ^ 36) by (vm_compute in E; injection E as <-; vm_compute; discriminate).
  pose proof (b_value_val _ a true b buy_pos) as V. unfold u64_max in Ha.
  destruct (V ltac:(lia) H) as (_ & _ & _ & _ & Hb). lia.
Qed.

Lemma never_sold_out a s b0 cost : is_u64 a -> is_u64 s -> 0 <= b0 -> 0 <= cost <= s ->
  ~ sold_out_cost test_curve_buy a b0 u64_max cost.
Proof.
  intros Ha Hs Hb Hc (_ & H & _).
  pose proof (area_mono test_curve_buy (0 + u64_max * ONE) (b0 + u64_max * ONE) buy_pos) as M.
  assert (A : 2 ^ 66 * ONE <= area test_curve_buy (0 + u64_max * ONE)) by (vm_compute; discriminate).
  specialize (M ltac:(unfold u64_max, ONE; lia)).
  unfold is_u64, u64_max, ONE in *. lia.
Qed.

Lemma linear_buy_test source ss : drawn64 source -> drawn64 ss ->
  passes_with_a_trade (linear_value_swap_a_to_b source ss) (swap_a_to_b test_curve_buy source ss u64_max).
Proof.
  intros H1 H2. apply d64 in H1, H2. destruct H1 as (U1 & L1 & M1), H2 as (U2 & L2 & M2).
  unfold linear_value_swap_a_to_b.
  destruct (swap_a_to_b test_curve_buy source ss u64_max) as [[src dst] | |] eqn:E; cbn [unwrap tbind verdict_of];
    [| right; split; [discriminate | reflexivity] ..].
  left. split; [eexists; reflexivity |].
  destruct (Z.ltb_spec 0 dst) as [D | D]; [| reflexivity].
  assert (UB : is_u64 u64_max) by (unfold is_u64; vm_compute; split; discriminate).
  pose proof E as E'. apply swap_a_to_b_val in E'; try assumption; [| exact buy_pos].
  destruct E' as (b0 & B0 & [(_ & Hs & C) | (-> & _ & b1 & B1 & L & -> & _)]).
  { pose proof (buy_position_small ss b0 U2 B0). exfalso. apply (never_sold_out ss source b0 src); try assumption. lia. }
  pose proof (buy_position_small ss b0 U2 B0) as P0.
  assert (Hb2 : exists p, b_down test_curve_buy ss = Val p).
  { apply b_value_down_total; [exact buy_pos |]. unfold is_u64, u64_max in *. lia. }
  destruct Hb2 as [p P].
  assert (Hp : 0 <= p <= b0).
  { split.
    - destruct (b_value_val test_curve_buy ss false p buy_pos) as (_ & _ & _ & _ & Hb); [unfold is_u64, u64_max in *; lia | exact P | lia].
    - apply (b_value_down_le_up test_curve_buy ss); [exact buy_pos | unfold is_u64, u64_max in *; lia | exact P | exact B0]. }
  pose proof (Z.div_mod (b1 - b0) ONE ltac:(discriminate)) as DM.
  pose proof (Z.mod_pos_bound (b1 - b0) ONE ltac:(reflexivity)) as MB.
  set (dst := (b1 - b0) / ONE) in *.
  assert (Hb1 : b1 < 2 ^ 122).
  { destruct (b_down test_curve_buy (2 ^ 65 - 1)) as [m | |] eqn:Em; [| vm_compute in Em; discriminate ..].
    assert (b1 <= m).
    { eapply (b_value_mono test_curve_buy (ss + source) (2 ^ 65 - 1)); [exact buy_pos | .. | exact B1 | exact Em];
        unfold is_u64, u64_max in *; lia. }
    assert (m < 2 ^ 122) by (vm_compute in Em; injection Em as <-; vm_compute; reflexivity). lia. }
  assert (Dd : dst <= u64_max).
  { unfold u64_max, ONE in *. lia. }
  unfold check_curve_value_from_swap.
  change (swap_without_fees (LinearPrice test_curve_buy) source ss u64_max AtoB) with
    (let? (src, dst) := swap_a_to_b test_curve_buy source ss u64_max in
     let? src' := map_zero_to_none src in let? dst' := map_zero_to_none dst in Val (src', dst')).
  rewrite E. cbn [obind]. unfold map_zero_to_none.
  destruct (Z.eqb_spec source 0); [lia |]. destruct (Z.eqb_spec dst 0); [lia |]. cbn [obind unwrap tbind in_order].
  change (normalized_value (LinearPrice test_curve_buy)) with (linear_normalized_value test_curve_buy).
  unfold is_u64, u64_max in *.
  rewrite (value_124 test_curve_buy ss _ p); [| exact buy_pos | lia | unfold u64_max; lia | exact P | unfold ONE; lia].
  cbn [unwrap tbind]. rewrite add_in_eq by (unfold u128_max; lia). rewrite csub_eq by lia. cbn [unwrap tbind].
  rewrite (value_124 test_curve_buy (ss + source) _ b1); [| exact buy_pos | lia | unfold u64_max; lia | exact B1 | unfold ONE in *; lia].
  cbn [unwrap tbind].
  assert (M : (p + (2 ^ 64 - 1) * ONE) / 2 ^ 92 <= (b1 + (2 ^ 64 - 1 - dst) * ONE) / 2 ^ 92).
  { apply Z.div_le_mono; [reflexivity |]. lia. }
  rewrite assert_eq by (apply Z.leb_le; exact M). cbn [tbind].
  unfold spl_sub. rewrite csub_eq by exact M. cbn [unwrap tbind].
  assert (V0 : 0 <= (p + (2 ^ 64 - 1) * ONE) / 2 ^ 92) by (apply Z.div_pos; [unfold ONE; lia | reflexivity]).
  assert (V1 : (b1 + (2 ^ 64 - 1 - dst) * ONE) / 2 ^ 92 < 2 ^ 32).
  { apply Z.div_lt_upper_bound; [reflexivity |]. unfold ONE in *. lia. }
  set (x := (b1 + (2 ^ 64 - 1 - dst) * ONE) / 2 ^ 92 - (p + (2 ^ 64 - 1) * ONE) / 2 ^ 92) in *.
  assert (X : 0 <= x < 2 ^ 32) by (unfold x; lia).
  unfold spl_to_imprecise, SPL_HALF, SPL_ONE.
  rewrite add_in_eq by (unfold u256_max; lia). cbn [obind]. rewrite cdiv_eq by discriminate. cbn [obind].
  rewrite Z.div_small by lia. reflexivity.
Qed.
