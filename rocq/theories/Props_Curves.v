(** Curve and fee calculations: C01, C21, C23 - C31. *)
From Verif Require Import Ints Tactics Fees LinearCurve ConstantPrice ConstantProduct OffsetCurve
  StableCurve SwapCurve Spec CurveFacts LinearFacts SwapFacts CurveProps.

(** C01.  For every curve, fee schedule, direction and all 64-bit balances. *)
Theorem C01_swap_bounds : forall c source ss sd d f r,
  curve_wf c -> fees_wf f -> is_u64 source -> is_u64 ss -> is_u64 sd ->
  curve_swap c source ss sd d f = Val r ->
  trade_fee r + owner_fee r <= source_amount_swapped r <= source /\
  0 <= trade_fee r /\ 0 <= owner_fee r /\
  0 <= destination_amount_swapped r <= sd /\
  new_swap_source_amount r = ss + source_amount_swapped r /\
  new_swap_destination_amount r = sd - destination_amount_swapped r /\
  (rejects_zero_payout c -> 0 < destination_amount_swapped r).
Proof. exact curve_swap_bounds. Qed.
Print Assumptions C01_swap_bounds.

Example C01_case :
  curve_swap (ConstantPrice 3) 100 1000 500 AtoB (mk_fees 1 10 1 20 0 0 0 0)
    = Val (mk_swap_result 1099 472 99 28 10 5) /\
  curve_swap (LinearPrice (mk_linear 1 2 3 1)) 100 50 500 AtoB (mk_fees 0 0 0 0 0 0 0 0)
    = Val (mk_swap_result 150 491 100 9 0 0) /\
  curve_swap ConstantProduct 5 0 7 BtoA (mk_fees 0 0 0 0 0 0 0 0)
    = Val (mk_swap_result 0 0 0 7 0 0).
Proof. vm_compute. repeat split. Qed.

(** C21. *)
Theorem C21_fee_bounds : forall amount num den,
  is_u64 amount -> is_u64 num -> is_u64 den -> proper_fraction num den ->
  exists fee, calculate_fee amount num den = Val fee /\ 0 <= fee <= amount /\
    (fee = 0 <-> num = 0 \/ amount = 0) /\
    (fee * den < amount * num + den \/ den = 0) /\ (amount * num < (fee + 1) * den \/ den = 0).
Proof. exact calculate_fee_spec. Qed.
Print Assumptions C21_fee_bounds.

Example C21_case : proper_fraction 1 1000 /\ calculate_fee 999 1 1000 = Val 1 /\
  calculate_fee 2999 1 1000 = Val 2 /\ calculate_fee u64_max (u64_max - 1) u64_max = Val (u64_max - 1).
Proof. vm_compute. repeat split. right. reflexivity. Qed.

(** C22, arithmetic part: the schedules that pass validation. *)
Theorem C22_validated_fees : forall f, fees_wf f ->
  (fees_validate f = Ok tt <->
   proper_fraction (trade_fee_num f) (trade_fee_den f) /\
   proper_fraction (owner_trade_fee_num f) (owner_trade_fee_den f) /\
   proper_fraction (owner_withdraw_fee_num f) (owner_withdraw_fee_den f) /\
   proper_fraction (host_fee_num f) (host_fee_den f)).
Proof. exact fees_validate_ok. Qed.
Print Assumptions C22_validated_fees.

Example C22_case : fees_validate (mk_fees 0 0 1 2 0 5 99 100) = Ok tt /\
  fees_validate (mk_fees 0 0 1 2 3 3 99 100) = Err (ESwap InvalidFee).
Proof. vm_compute. split; reflexivity. Qed.

(** C23.  The trade is worth the same on both sides, the unused rest of the offer
    is below one price, and the pool's value grows by exactly the fees. *)
Theorem C23_constant_price_exact : forall p source ss sd d f r,
  is_u64 p -> 0 < p -> 0 <= source -> curve_swap (ConstantPrice p) source ss sd d f = Val r ->
  exists total, total = trade_fee r + owner_fee r /\
    trading_fee f source = Val (trade_fee r) /\ owner_trading_fee f source = Val (owner_fee r) /\
    total <= source /\
    value_of p (source_amount_swapped r - total) d =
      value_of p (destination_amount_swapped r) (opposite d) /\
    source - p < source_amount_swapped r <= source /\
    pool_value p (side_a d (new_swap_source_amount r) (new_swap_destination_amount r))
                 (side_b d (new_swap_source_amount r) (new_swap_destination_amount r)) =
    pool_value p (side_a d ss sd) (side_b d ss sd) + value_of p total d.
Proof. exact cprice_curve_swap. Qed.
Print Assumptions C23_constant_price_exact.

Example C23_case :
  curve_swap (ConstantPrice 7) 50 10 20 AtoB (mk_fees 0 0 0 0 0 0 0 0)
    = Val (mk_swap_result 59 13 49 7 0 0) /\
  curve_swap (ConstantPrice 7) 5 10 50 BtoA (mk_fees 1 5 0 0 0 0 0 0)
    = Val (mk_swap_result 15 22 5 28 1 0).
Proof. vm_compute. split; reflexivity. Qed.

(** C24, withdrawals: never more than the proportional share of the value. *)
Theorem C24_withdrawal_fair : forall p n supply a b x y,
  0 < p -> 0 <= n -> 0 < supply -> 0 <= a -> 0 <= b ->
  cprice_pool_tokens_to_trading_tokens p n supply a b Floor = Val (x, y) ->
  0 <= x /\ 0 <= y /\ pool_value p x y * supply <= n * pool_value p a b.
Proof. exact cprice_withdraw_both. Qed.
Print Assumptions C24_withdrawal_fair.

(** C24, deposits: the full claim  [n * pool_value p a b <= pool_value p x y * supply]
    is false, because the program halves the pool value rounding down. *)
Theorem C24_deposit_fair_refuted : exists p n supply a b x y,
  is_u64 p /\ is_u64 n /\ is_u64 supply /\ is_u64 a /\ is_u64 b /\ 0 < p /\ 0 < supply /\
  cprice_pool_tokens_to_trading_tokens p n supply a b Ceiling = Val (x, y) /\ 0 < x /\ 0 < y /\
  pool_value p x y * supply < n * pool_value p a b.
Proof. exact deposit_both_unfair. Qed.
Print Assumptions C24_deposit_fair_refuted.

(** C24, deposits: what holds is the claim for the value rounded down to an even
    number (the program rejects deposits with a zero side). *)
Theorem C24_deposit_fair_partial : forall p n supply a b x y,
  0 < p -> 0 <= n -> 0 < supply -> 0 <= a -> 0 <= b ->
  cprice_pool_tokens_to_trading_tokens p n supply a b Ceiling = Val (x, y) -> 0 < x -> 0 < y ->
  n * (2 * (pool_value p a b / 2)) <= pool_value p x y * supply.
Proof. exact cprice_deposit_both. Qed.
Print Assumptions C24_deposit_fair_partial.

Example C24_case :
  cprice_pool_tokens_to_trading_tokens 3 100 1000 500 101 Floor = Val (40, 13) /\
  cprice_pool_tokens_to_trading_tokens 3 100 1000 500 101 Ceiling = Val (41, 14).
Proof. vm_compute. split; reflexivity. Qed.

(** C25. *)
Theorem C25_single_deposit_fair : forall p source a b supply d f t,
  is_u64 p -> fees_wf f -> 0 <= source -> 0 <= a -> 0 <= b -> 0 <= supply ->
  curve_deposit_single (ConstantPrice p) source a b supply d f = Val t ->
  0 <= t /\ t * pool_value p a b <= supply * value_of p source d.
Proof. exact cprice_single_deposit_fair. Qed.
Print Assumptions C25_single_deposit_fair.

Example C25_case :
  curve_deposit_single (ConstantPrice 3) 100 1000 200 1000 BtoA (mk_fees 1 100 0 0 0 0 0 0) = Val 185 /\
  value_of 3 100 BtoA = 300 /\ pool_value 3 1000 200 = 1600.
Proof. vm_compute. repeat split. Qed.

(** C26: the full claim is false when a trading fee is set, because the program
    deducts the fee from the amount to be withdrawn before pricing it: with a
    fee of 25%, taking 100 of 1000 burns only 88 of 1000 pool tokens. *)
Theorem C26_single_withdrawal_fair_refuted : exists p source a b supply d f t,
  is_u64 p /\ fees_wf f /\ fees_validate f = Ok tt /\
  curve_withdraw_single (ConstantPrice p) source a b supply d f = Val t /\ 0 < t /\
  t * pool_value p a b < supply * value_of p source d.
Proof. exact single_withdrawal_unfair. Qed.
Print Assumptions C26_single_withdrawal_fair_refuted.

(** C26: it holds for every schedule without a trading fee (withdrawals that burn
    nothing are rejected by the instruction). *)
Theorem C26_single_withdrawal_fair_partial : forall p source a b supply d f t,
  is_u64 p -> fees_wf f -> trade_fee_num f = 0 -> 0 <= source -> 0 <= a -> 0 <= b -> 0 <= supply ->
  curve_withdraw_single (ConstantPrice p) source a b supply d f = Val t -> 0 < t ->
  supply * value_of p source d <= t * pool_value p a b.
Proof. exact cprice_single_withdraw_fair. Qed.
Print Assumptions C26_single_withdrawal_fair_partial.

(** C26: with a trading fee it holds for the amount less the fee on half of it. *)
Theorem C26_single_withdrawal_net_partial : forall p source a b supply d f t,
  is_u64 p -> fees_wf f -> 0 < source -> 0 <= a -> 0 <= b -> 0 <= supply ->
  curve_withdraw_single (ConstantPrice p) source a b supply d f = Val t -> 0 < t ->
  exists fee, trading_fee f (Z.max 1 (source / 2)) = Val fee /\ 0 <= fee <= source /\
  supply * value_of p (source - fee) d <= t * pool_value p a b.
Proof. exact cprice_single_withdraw_partial. Qed.
Print Assumptions C26_single_withdrawal_net_partial.

Example C26_case :
  curve_withdraw_single (ConstantPrice 3) 100 1000 200 1000 BtoA (mk_fees 0 0 0 0 0 0 0 0) = Val 188.
Proof. vm_compute. reflexivity. Qed.

(** C27: the full claim is false; the pool tokens minted for the owner fee are
    rounded up, which can exceed the value the fee added. *)
Theorem C27_swap_fair_refuted : exists p source ss sd d f r supply t,
  is_u64 p /\ 0 < p /\ fees_wf f /\ fees_validate f = Ok tt /\
  curve_swap (ConstantPrice p) source ss sd d f = Val r /\
  curve_withdraw_single (ConstantPrice p) (owner_fee r)
    (side_a d (new_swap_source_amount r) (new_swap_destination_amount r))
    (side_b d (new_swap_source_amount r) (new_swap_destination_amount r)) supply d f = Val t /\
  pool_value p (side_a d (new_swap_source_amount r) (new_swap_destination_amount r))
               (side_b d (new_swap_source_amount r) (new_swap_destination_amount r)) * supply <
  pool_value p (side_a d ss sd) (side_b d ss sd) * (supply + t).
Proof. exact swap_unfair. Qed.
Print Assumptions C27_swap_fair_refuted.

(** C27: it holds up to a single minted pool-token unit. *)
Theorem C27_swap_fair_partial : forall p source ss sd d f r supply t,
  is_u64 p -> 0 < p -> fees_wf f -> 0 <= source -> 0 <= ss -> 0 <= sd -> 0 <= supply ->
  curve_swap (ConstantPrice p) source ss sd d f = Val r ->
  curve_withdraw_single (ConstantPrice p) (owner_fee r)
    (side_a d (new_swap_source_amount r) (new_swap_destination_amount r))
    (side_b d (new_swap_source_amount r) (new_swap_destination_amount r)) supply d f = Val t ->
  let v0 := pool_value p (side_a d ss sd) (side_b d ss sd) in
  let v1 := pool_value p (side_a d (new_swap_source_amount r) (new_swap_destination_amount r))
                         (side_b d (new_swap_source_amount r) (new_swap_destination_amount r)) in
  v0 * (supply + Z.max 0 (t - 1)) <= v1 * supply.
Proof. exact cprice_owner_fee_dilution. Qed.
Print Assumptions C27_swap_fair_partial.

Example C27_case :
  curve_swap (ConstantPrice 1) 400 500 500 AtoB (mk_fees 0 0 15 100 0 0 0 0)
    = Val (mk_swap_result 900 160 400 340 0 60) /\
  curve_withdraw_single (ConstantPrice 1) 60 900 160 1000 AtoB (mk_fees 0 0 15 100 0 0 0 0) = Val 57.
Proof. vm_compute. split; reflexivity. Qed.

(** C28: with a non-zero source reserve the product of the reserves never
    decreases, no smaller charge and no larger payout would be justified. *)
Theorem C28_constant_product : forall source ss sd src dst,
  0 <= source -> 0 <= ss -> 0 <= sd -> cprod_swap source ss sd = Val (src, dst) ->
  0 <= src <= source /\ 0 < dst <= sd /\
  (0 < ss ->
     ss * sd <= (ss + src) * (sd - dst) /\
     (forall s, s < src -> (ss + s) * (sd - dst) < ss * sd) /\
     (forall x, dst < x <= sd -> (ss + source) * (sd - x) < ss * sd)).
Proof. exact cprod_swap_spec. Qed.
Print Assumptions C28_constant_product.

(** C28 for the offset curve, with the virtual reserve. *)
Theorem C28_offset : forall o source ss sd d src dst,
  0 <= o -> 0 <= source -> 0 <= ss -> 0 <= sd -> offset_swap o source ss sd d = Val (src, dst) ->
  let vs := match d with AtoB => ss | BtoA => ss + o end in
  let vd := match d with AtoB => sd + o | BtoA => sd end in
  0 <= src <= source /\ 0 < dst <= vd /\
  (0 < vs ->
     vs * vd <= (vs + src) * (vd - dst) /\
     (forall s, s < src -> (vs + s) * (vd - dst) < vs * vd) /\
     (forall x, dst < x <= vd -> (vs + source) * (vd - x) < vs * vd)).
Proof. exact offset_swap_spec. Qed.
Print Assumptions C28_offset.

(** C28: the condition on the source reserve is needed; with an empty source
    reserve the curve gives the whole destination away for nothing. *)
Theorem C28_empty_reserve_refuted : exists source sd src dst,
  0 < sd /\ cprod_swap source 0 sd = Val (src, dst) /\ src = 0 /\ dst = sd.
Proof. exact empty_reserve_gives_all. Qed.
Print Assumptions C28_empty_reserve_refuted.

Example C28_case : cprod_swap 5 10 7 = Val (4, 2) /\ 10 * 7 <= (10 + 4) * (7 - 2) /\
  offset_swap 100 10 1000 5 AtoB = Val (10, 1).
Proof. vm_compute. repeat split; congruence. Qed.

(** C29, withdrawals are rounded down. *)
Theorem C29_ratio_floor : forall n supply a b x y, 0 <= n -> 0 <= supply -> 0 <= a -> 0 <= b ->
  ratio_pool_tokens_to_trading_tokens n supply a b Floor = Val (x, y) ->
  0 < supply /\
  x * supply <= n * a < (x + 1) * supply /\ y * supply <= n * b < (y + 1) * supply.
Proof. exact ratio_floor. Qed.
Print Assumptions C29_ratio_floor.

(** C29, deposits are rounded up, amounts below one unit convert to zero. *)
Theorem C29_ratio_ceiling : forall n supply a b x y, 0 <= n -> 0 <= supply -> 0 <= a -> 0 <= b ->
  ratio_pool_tokens_to_trading_tokens n supply a b Ceiling = Val (x, y) ->
  0 < supply /\
  ((n * a < supply /\ x = 0) \/ (supply <= n * a /\ (x - 1) * supply < n * a <= x * supply)) /\
  ((n * b < supply /\ y = 0) \/ (supply <= n * b /\ (y - 1) * supply < n * b <= y * supply)).
Proof. exact ratio_ceiling. Qed.
Print Assumptions C29_ratio_ceiling.

Theorem C29_ratio_no_panic : forall n supply a b r, 0 <= n -> 0 <= supply -> 0 <= a -> 0 <= b ->
  ratio_pool_tokens_to_trading_tokens n supply a b r <> Panic.
Proof. exact ratio_no_panic. Qed.
Print Assumptions C29_ratio_no_panic.

Example C29_case :
  ratio_pool_tokens_to_trading_tokens 5 10 7 1 Floor = Val (3, 0) /\
  ratio_pool_tokens_to_trading_tokens 5 10 7 1 Ceiling = Val (4, 0).
Proof. vm_compute. split; reflexivity. Qed.

(** C30. *)
Theorem C30_offset_pays_what_it_holds : forall o source ss sd d f r,
  is_u64 o -> fees_wf f -> is_u64 source -> is_u64 ss -> is_u64 sd ->
  curve_swap (Offset o) source ss sd d f = Val r ->
  0 < destination_amount_swapped r <= sd /\
  new_swap_destination_amount r = sd - destination_amount_swapped r.
Proof. exact offset_pays_held. Qed.
Print Assumptions C30_offset_pays_what_it_holds.

(** The curve alone would pay 9 of a virtual reserve of 105; the pool holds 5. *)
Example C30_case :
  offset_swap 100 10 100 5 AtoB = Val (10, 9) /\
  curve_swap (Offset 100) 10 100 5 AtoB (mk_fees 0 0 0 0 0 0 0 0) = Non /\
  curve_swap (Offset 100) 5 100 5 AtoB (mk_fees 0 0 0 0 0 0 0 0)
    = Val (mk_swap_result 105 0 5 5 0 0).
Proof. vm_compute. repeat split. Qed.

(** C31. *)
Theorem C31_stable_bounds : forall amp source ss sd src dst,
  0 <= amp -> 0 <= source -> 0 <= ss -> 0 <= sd ->
  stable_swap amp source ss sd = Val (src, dst) -> src = source /\ 0 <= dst <= sd.
Proof. exact stable_swap_spec. Qed.
Print Assumptions C31_stable_bounds.

Theorem C31_stable_no_panic : forall amp source ss sd, stable_swap amp source ss sd <> Panic.
Proof. exact stable_swap_no_panic. Qed.
Print Assumptions C31_stable_no_panic.

Example C31_case : stable_swap 100 50 1000 1000 = Val (50, 50) /\
  stable_swap 1 900 1000 100 = Val (900, 76) /\ stable_swap 0 50 1000 1000 = Non.
Proof. vm_compute. repeat split. Qed.
