(** The curves compute the quotes of QuoteSpec. *)
From Verif Require Import Ints Tactics SplMath Fees LinearCurve ConstantPrice ConstantProduct OffsetCurve
  StableCurve SwapCurve Spec QuoteSpec.

Lemma u64_max_val : u64_max = 18446744073709551615. Proof. reflexivity. Qed.
Lemma u128_max_val : u128_max = 340282366920938463463374607431768211455. Proof. reflexivity. Qed.
Lemma u256_max_val : u256_max =
  115792089237316195423570985008687907853269984665640564039457584007913129639935. Proof. reflexivity. Qed.
Ltac consts := rewrite ?u64_max_val, ?u128_max_val, ?u256_max_val in *.

(** Products of bounded numbers. *)
Lemma prod_le a b m n : 0 <= a <= m -> 0 <= b <= n -> 0 <= a * b <= m * n.
Proof. intros. split; [lia | apply Z.mul_le_mono_nonneg; lia]. Qed.

Lemma ceil_step a b : 0 <= a -> 0 < b -> 0 < a mod b -> a / b + 1 = (a + b - 1) / b.
Proof.
  intros Ha Hb Hm. pose proof (Z.div_mod a b ltac:(lia)). pose proof (Z.mod_pos_bound a b Hb).
  apply (Z.div_unique _ _ _ (a mod b - 1)); lia.
Qed.
Lemma ceil_exact a b : 0 <= a -> 0 < b -> a mod b = 0 -> a / b = (a + b - 1) / b.
Proof.
  intros Ha Hb Hm. pose proof (Z.div_mod a b ltac:(lia)).
  apply (Z.div_unique _ _ _ (b - 1)); lia.
Qed.

(** The second component is the least divisor with the same rounded-up quotient. *)
Lemma ceil_div_exact m a b : 0 <= a <= m -> 0 <= b -> (a < b -> 2 * a <= m) -> 1 <= m ->
  checked_ceil_div m a b =
  if b =? 0 then Non else Val (up_div a b, if a <? b then 0 else (a + up_div a b - 1) / up_div a b).
Proof.
  intros Ha Hb Hm Hm1. unfold checked_ceil_div, up_div.
  destruct (Z.eqb_spec b 0) as [-> | Hb0]; [reflexivity |].
  rewrite cdiv_eq by assumption. cbn [obind].
  destruct (Z.ltb_spec a b) as [Hlt | Hge].
  - rewrite Z.div_small by lia. rewrite Z.eqb_refl.
    rewrite mul_in_eq by lia. cbn [obind]. rewrite (Z.mul_comm a 2).
    destruct (b <=? 2 * a); reflexivity.
  - assert (Hq : 1 <= a / b) by (apply Z.div_le_lower_bound; lia).
    destruct (Z.eqb_spec (a / b) 0) as [E | _]; [lia |].
    rewrite crem_eq by assumption. cbn [obind].
    pose proof (Z.mod_pos_bound a b ltac:(lia)) as Hmod.
    assert (Hqa : a / b <= a) by (apply Z.div_le_upper_bound; nia).
    destruct (Z.ltb_spec 0 (a mod b)) as [Hp | Hz].
    + assert (Hqa1 : a / b + 1 <= a).
      { rewrite ceil_step by lia. apply Z.div_le_upper_bound; [lia |].
        destruct (Z.eq_dec b 1) as [-> | ]; [rewrite Z.mod_1_r in Hp; lia | nia]. }
      rewrite add_in_eq by lia. cbn [obind].
      rewrite cdiv_eq by lia. cbn [obind]. rewrite crem_eq by lia. cbn [obind].
      rewrite ceil_step by lia. set (q := (a + b - 1) / b).
      assert (Hq2 : 1 <= q <= a) by (unfold q; rewrite <- ceil_step by lia; lia).
      pose proof (Z.mod_pos_bound a q ltac:(lia)).
      destruct (Z.ltb_spec 0 (a mod q)) as [Hp1 | Hz1].
      * assert (a / q <= a) by (apply Z.div_le_upper_bound; nia).
        destruct (Z.eq_dec q 1) as [E1 | Hne]; [rewrite E1, Z.mod_1_r in Hp1; lia |].
        assert (a / q + 1 <= m).
        { assert (a / q <= a / 2) by (apply Z.div_le_compat_l; lia).
          assert (a / 2 <= a - 1) by (apply Z.div_le_upper_bound; lia). lia. }
        rewrite add_in_eq by lia. cbn [obind]. rewrite ceil_step by lia. reflexivity.
      * rewrite (ceil_exact a q) by lia. reflexivity.
    + assert (E : a mod b = 0) by lia.
      rewrite <- (ceil_exact a b) by lia.
      pose proof (Z.div_mod a b ltac:(lia)) as Hd. rewrite E in Hd.
      f_equal. f_equal. apply (Z.div_unique _ _ _ (a / b - 1)); lia.
Qed.

Lemma fee_exact amount num den : calculate_fee amount num den = fee_of amount num den \/ amount * num < 0 \/ den < 0.
Proof.
  unfold calculate_fee, fee_of.
  destruct ((num =? 0) || (amount =? 0)) eqn:E0; [left; reflexivity |].
  apply orb_false_iff in E0. destruct E0 as [En Ea].
  apply Z.eqb_neq in En, Ea.
  destruct (Z_lt_dec (amount * num) 0); [auto |]. destruct (Z_lt_dec den 0); [auto |]. left.
  unfold mul_in. rewrite (Z.leb_antisym u128_max).
  destruct (Z.ltb_spec u128_max (amount * num)); cbn [negb obind orb]; [reflexivity |].
  unfold cdiv. destruct (Z.eqb_spec den 0); [reflexivity |]. cbn [obind].
  assert (0 <= amount * num / den) by (apply Z.div_pos; lia).
  destruct (Z.eqb_spec (amount * num / den) 0) as [E | E].
  - rewrite E. reflexivity.
  - rewrite Z.max_r by lia. reflexivity.
Qed.
Lemma fee_of_eq amount num den : 0 <= amount -> 0 <= num -> 0 <= den ->
  calculate_fee amount num den = fee_of amount num den.
Proof. intros. destruct (fee_exact amount num den) as [E | [E | E]]; [assumption | nia | lia]. Qed.

(** ** Constant price *)

Lemma price_swap_exact p source d : is_u64 p -> is_u64 source ->
  cprice_swap p source d = price_swap_quote p source d.
Proof.
  intros Hp Hs. unfold is_u64 in *. unfold cprice_swap, price_swap_quote, map_zero_to_none. destruct d.
  - unfold cdiv, crem. destruct (Z.eqb_spec p 0) as [-> | Hp0]; [reflexivity |]. cbn [obind orb].
    pose proof (Z.mod_pos_bound source p ltac:(lia)). pose proof (Z.div_mod source p ltac:(lia)).
    assert (E : (if 0 <? source mod p then csub source (source mod p) else Val source)
                = Val (source - source mod p)).
    { destruct (Z.ltb_spec 0 (source mod p)).
      - apply csub_eq. apply Z.mod_le; lia.
      - f_equal. lia. }
    rewrite E. cbn [obind].
    destruct (Z.ltb_spec source p) as [Hlt | Hge].
    + rewrite Z.div_small, Z.mod_small by lia. rewrite Z.sub_diag. reflexivity.
    + assert (1 <= source / p) by (apply Z.div_le_lower_bound; lia).
      destruct (Z.eqb_spec (source - source mod p) 0); [nia |]. cbn [obind].
      destruct (Z.eqb_spec (source / p) 0); [lia | reflexivity].
  - pose proof (prod_le source p u64_max u64_max Hs Hp).
    rewrite mul_in_eq by (consts; lia). cbn [obind].
    destruct (Z.eqb_spec source 0) as [-> | Hs0]; [reflexivity |]. cbn [obind].
    destruct (source * p =? 0); reflexivity.
Qed.

Lemma pool_value_u64 p a b : is_u64 p -> is_u64 a -> is_u64 b ->
  0 <= b * p /\ 0 <= pool_value p a b <= u128_max.
Proof.
  intros Hp Ha Hb. unfold is_u64, pool_value in *.
  pose proof (prod_le p b u64_max u64_max Hp Hb). consts. lia.
Qed.

(** The products inside do not overflow even for 128-bit balances. *)
Lemma price_single_exact p source a b supply d r :
  is_u64 p -> is_u128 source -> is_u128 a -> is_u128 b -> is_u64 supply ->
  trading_tokens_to_pool_tokens p source a b supply d r = price_single_quote p source a b supply d r.
Proof.
  intros Hp Hs Ha Hb Hn. unfold is_u64, is_u128 in *. unfold trading_tokens_to_pool_tokens, price_single_quote.
  pose proof (prod_le source p u128_max u64_max Hs Hp).
  pose proof (prod_le b p u128_max u64_max Hb Hp).
  assert (Hg : match d with AtoB => Val source | BtoA => mul_in u256_max source p end
               = Val (value_of p source d) /\ 0 <= value_of p source d <= u128_max * u64_max).
  { destruct d; unfold value_of.
    - consts. split; [reflexivity | lia].
    - rewrite mul_in_eq by (consts; lia). rewrite (Z.mul_comm source). split; [reflexivity | lia]. }
  destruct Hg as [-> Hg]. cbn [obind].
  rewrite mul_in_eq by (consts; lia). cbn [obind].
  rewrite add_in_eq by (consts; lia). cbn [obind].
  replace (b * p + a) with (pool_value p a b) by (unfold pool_value; lia).
  assert (Ht : 0 <= pool_value p a b <= u128_max * u64_max + u128_max) by (unfold pool_value; lia).
  pose proof (prod_le supply (value_of p source d) u64_max (u128_max * u64_max) Hn Hg) as Hx.
  set (v := value_of p source d) in *. set (t := pool_value p a b) in *.
  unfold as_u128. destruct r; cbv beta iota; cbn [round_div].
  - rewrite mul_in_eq by (consts; lia). cbn [obind]. unfold cdiv. destruct (t =? 0); reflexivity.
  - rewrite mul_in_eq by (consts; lia). cbn [obind].
    rewrite ceil_div_exact by (consts; lia). destruct (t =? 0); reflexivity.
Qed.

Lemma to_imprecise_whole v : 0 <= v <= u128_max -> spl_to_imprecise (v * SPL_ONE) = Val v.
Proof.
  intros Hv. unfold spl_to_imprecise, SPL_ONE, SPL_HALF.
  rewrite add_in_eq by (consts; lia). cbn [obind]. rewrite cdiv_eq by discriminate. cbn [obind].
  replace ((v * 1000000000000 + 500000000000) / 1000000000000) with v
    by (apply (Z.div_unique _ _ _ 500000000000); lia).
  apply as_u128_val. split; [reflexivity | lia].
Qed.

Lemma spl_new_eq v : 0 <= v <= 2 ^ 200 -> spl_new v = Val (v * SPL_ONE).
Proof. intros Hv. unfold spl_new, SPL_ONE. apply mul_in_eq. change (2 ^ 200) with
 1606938044258990275541962092341162602522202993782792835301376 in Hv. consts. lia. Qed.

(** The value of a pool, in token A, is reported as one half of the holdings. *)
Lemma price_value_exact p a b : is_u64 p -> is_u64 a -> is_u64 b ->
  cprice_normalized_value p a b = Val (pool_value p a b / 2 * 10 ^ 12).
Proof.
  intros Hp Ha Hb. pose proof (pool_value_u64 p a b Hp Ha Hb) as [Hb0 Hv].
  unfold cprice_normalized_value. unfold pool_value in *.
  assert (Hle : b * p <= u128_max - u64_max).
  { unfold is_u64 in *. pose proof (prod_le b p u64_max u64_max Hb Hp). consts. lia. }
  rewrite mul_in_eq by (consts; lia). cbn [obind]. unfold sat_sub.
  destruct (Z.ltb_spec (u128_max - u64_max) (Z.max 0 (b * p - u64_max))) as [Hc | _]; [consts; lia |].
  rewrite add_in_eq by (unfold is_u64 in *; consts; lia). cbn [obind]. rewrite cdiv_eq by discriminate. cbn [obind].
  rewrite (Z.mul_comm b p). change (10 ^ 12) with SPL_ONE.
  assert (0 <= (a + p * b) / 2) by (apply Z.div_pos; lia).
  assert ((a + p * b) / 2 <= a + p * b) by (apply Z.div_le_upper_bound; lia).
  apply spl_new_eq. change (2 ^ 200) with 1606938044258990275541962092341162602522202993782792835301376.
  consts. lia.
Qed.

Lemma up_div_bound a b : 0 <= a -> 0 < b -> 0 <= up_div a b <= a.
Proof.
  intros Ha Hb. unfold up_div. destruct (Z.ltb_spec a b).
  - destruct (Z.leb_spec b (2 * a)); lia.
  - split; [apply Z.div_pos; lia | apply Z.div_le_upper_bound; nia].
Qed.

Lemma price_both_exact p n supply a b r :
  is_u64 p -> is_u64 n -> is_u64 supply -> is_u64 a -> is_u64 b ->
  cprice_pool_tokens_to_trading_tokens p n supply a b r = price_both_quote p n supply a b r.
Proof.
  intros Hp Hn Hs Ha Hb. pose proof (pool_value_u64 p a b Hp Ha Hb) as [_ Hv].
  unfold cprice_pool_tokens_to_trading_tokens, price_both_quote.
  rewrite price_value_exact by assumption. cbn [obind].
  change (10 ^ 12) with SPL_ONE.
  assert (Hh : 0 <= pool_value p a b / 2 <= u128_max).
  { split; [apply Z.div_pos; lia | apply Z.div_le_upper_bound; lia]. }
  rewrite to_imprecise_whole by assumption. cbn [obind].
  set (h := pool_value p a b / 2) in *. unfold is_u64 in *.
  assert (0 <= n * h) by lia.
  unfold mul_in. rewrite (Z.leb_antisym u128_max).
  destruct r; cbv beta iota; cbn [round_div].
  - destruct (Z.ltb_spec u128_max (n * h)); cbn [negb obind orb]; [reflexivity |].
    unfold cdiv. destruct (Z.eqb_spec supply 0); cbn [obind orb]; [reflexivity |].
    destruct (Z.eqb_spec p 0); reflexivity.
  - destruct (Z.ltb_spec u128_max (n * h)); cbn [negb obind orb]; [reflexivity |].
    rewrite ceil_div_exact by (consts; lia).
    destruct (Z.eqb_spec supply 0); cbn [obind orb]; [reflexivity |].
    rewrite ceil_div_exact by (consts; lia).
    destruct (Z.eqb_spec p 0); cbn [obind orb]; [reflexivity |].
    pose proof (up_div_bound (n * h) p ltac:(lia) ltac:(lia)).
    rewrite ceil_div_exact by (consts; lia).
    destruct (Z.eqb_spec supply 0); [contradiction | reflexivity].
Qed.

(** ** Constant product *)

Lemma up_div_ge a b : 0 < b <= a -> up_div a b = (a + b - 1) / b.
Proof. intros H. unfold up_div. destruct (Z.ltb_spec a b); [lia | reflexivity]. Qed.

Lemma product_swap_exact source ss sd : is_u64 source -> 0 <= ss <= 2 * u64_max -> 0 <= sd ->
  cprod_swap source ss sd = product_swap_quote source ss sd.
Proof.
  intros Hs Hss Hsd. unfold is_u64 in *. unfold cprod_swap, product_swap_quote, map_zero_to_none.
  assert (Hk : 0 <= ss * sd) by lia.
  unfold mul_in. rewrite (Z.leb_antisym u128_max).
  destruct (Z.ltb_spec u128_max (ss * sd)) as [_ | Hov]; cbn [negb obind orb]; [reflexivity |].
  rewrite add_in_eq by (consts; lia). cbn [obind].
  rewrite ceil_div_exact by (consts; lia).
  destruct (Z.eqb_spec (ss + source) 0) as [_ | Hne]; [reflexivity |]. cbn [obind].
  set (t := ss + source) in *. assert (Ht : ss <= t /\ 0 < t) by (unfold t in *; lia).
  destruct (Z.ltb_spec (ss * sd) t) as [Hlt | Hge].
  - unfold csub at 1.
    destruct (Z.leb_spec ss 0) as [H0 | H0]; cbn [obind].
    + assert (ss = 0) by lia. subst ss. rewrite Z.eqb_refl. cbn [andb].
      unfold up_div. destruct (Z.ltb_spec (0 * sd) t); [| lia].
      destruct (Z.leb_spec t (2 * (0 * sd))); [lia |].
      rewrite csub_eq by lia. cbn [obind]. rewrite !Z.sub_0_r.
      destruct (Z.eqb_spec sd 0) as [-> | Hn]; [reflexivity |].
      destruct (Z.ltb_spec 0 sd); [reflexivity | lia].
    + destruct (Z.eqb_spec ss 0); [lia | reflexivity].
  - rewrite (up_div_ge (ss * sd) t) by lia.
    set (nd := (ss * sd + t - 1) / t).
    assert (Hnd1 : 1 <= nd) by (apply Z.div_le_lower_bound; lia).
    assert (Hnd : nd < sd + 1) by (apply Z.div_lt_upper_bound; nia).
    assert (Hns : ss <= (ss * sd + nd - 1) / nd).
    { apply Z.div_le_lower_bound; [lia |]. assert (nd * ss <= sd * ss) by (apply Z.mul_le_mono_nonneg_r; lia). lia. }
    rewrite csub_eq by assumption. cbn [obind]. rewrite csub_eq by lia. cbn [obind].
    destruct (Z.eqb_spec nd sd) as [-> | Hnq].
    + rewrite Z.sub_diag. reflexivity.
    + destruct (Z.eqb_spec (sd - nd) 0); [lia | reflexivity].
Qed.

Lemma bump_exact n a supply : 0 <= n * a < u128_max -> 0 < supply ->
  bump_if_inexact (n * a / supply) (n * a mod supply) = Val (share_of Ceiling n a supply).
Proof.
  intros Hna Hs. unfold bump_if_inexact, share_of.
  pose proof (Z.mod_pos_bound (n * a) supply Hs) as Hm.
  assert (n * a / supply <= n * a) by (apply Z.div_le_upper_bound; nia).
  destruct (Z.ltb_spec (n * a) supply) as [Hlt | Hge].
  - rewrite Z.div_small by lia. rewrite andb_false_r. reflexivity.
  - assert (1 <= n * a / supply) by (apply Z.div_le_lower_bound; lia).
    destruct (Z.ltb_spec 0 (n * a / supply)); [| lia].
    destruct (Z.ltb_spec 0 (n * a mod supply)); cbn [andb].
    + unfold add_or_panic. destruct (Z.leb_spec (n * a / supply + 1) u128_max); [| lia].
      rewrite ceil_step by lia. reflexivity.
    + rewrite ceil_exact by lia. reflexivity.
Qed.

Lemma ratio_exact n supply a b r : is_u64 n -> is_u64 supply -> is_u64 a -> is_u64 b ->
  ratio_pool_tokens_to_trading_tokens n supply a b r = ratio_quote n supply a b r.
Proof.
  intros Hn Hs Ha Hb. unfold is_u64 in *. unfold ratio_pool_tokens_to_trading_tokens, ratio_quote.
  pose proof (prod_le n a u64_max u64_max Hn Ha). pose proof (prod_le n b u64_max u64_max Hn Hb).
  rewrite !mul_in_eq by (consts; lia). cbn [obind]. unfold cdiv, crem.
  destruct (Z.eqb_spec supply 0); [reflexivity |]. cbn [obind].
  destruct r; [reflexivity |].
  rewrite bump_exact by (consts; lia). cbn [obind]. rewrite bump_exact by (consts; lia). reflexivity.
Qed.

(** ** Offset: constant product with a raised second reserve *)

Lemma offset_swap_exact o source ss sd d : is_u64 o -> is_u64 source -> is_u64 ss -> is_u64 sd ->
  offset_swap o source ss sd d =
  match d with AtoB => product_swap_quote source ss (sd + o) | BtoA => product_swap_quote source (ss + o) sd end.
Proof.
  intros Ho Hs Hss Hsd. unfold is_u64 in *. unfold offset_swap.
  destruct d; cbn [obind]; rewrite add_in_eq by (consts; lia); cbn [obind];
    apply product_swap_exact; unfold is_u64; consts; lia.
Qed.
