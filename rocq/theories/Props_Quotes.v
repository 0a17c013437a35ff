(** Every quote in plain arithmetic: C51, C57-C63. *)
From Verif Require Import Ints Tactics Fees LinearCurve ConstantPrice SwapCurve Spec CurveFacts QuoteSpec QuoteFacts QuoteCurves.

(** C51: the claim that quoting a one-sided operation never aborts is false. *)
Theorem C51_quote_never_aborts_refuted : exists p s a b supply,
  is_u64 p /\ is_u64 s /\ is_u64 a /\ is_u64 b /\ is_u64 supply /\ 0 < p /\ 0 < a /\
  curve_deposit_single (ConstantPrice p) s a b supply BtoA (mk_fees 0 0 0 0 0 0 0 0) = Panic.
Proof. exact abort_witness. Qed.
Print Assumptions C51_quote_never_aborts_refuted.

(** C51: it aborts exactly when the quote needs more than 128 bits. *)
Theorem C51_quote_aborts_when_partial : forall p s a b supply d r,
  is_u64 p -> is_u128 s -> is_u128 a -> is_u128 b -> is_u64 supply ->
  trading_tokens_to_pool_tokens p s a b supply d r = Panic <->
  0 < pool_value p a b /\ u128_max < round_div r (supply * value_of p s d) (pool_value p a b).
Proof. exact price_single_panics. Qed.
Print Assumptions C51_quote_aborts_when_partial.

(** C51: never for an amount the pool holds, so never for a payable withdrawal. *)
Theorem C51_held_amount_partial : forall p s a b supply d r,
  is_u64 p -> is_u128 s -> is_u128 a -> is_u128 b -> is_u64 supply -> s <= reserve_of d a b ->
  trading_tokens_to_pool_tokens p s a b supply d r <> Panic.
Proof. exact held_amount_no_panic. Qed.
Print Assumptions C51_held_amount_partial.

(** C51: never for a swap (the linear curve is the subject of C17). *)
Theorem C51_swap_partial : forall c s ss sd d,
  match c with LinearPrice _ => True | _ => swap_without_fees c s ss sd d <> Panic end.
Proof. exact swap_no_panic. Qed.
Print Assumptions C51_swap_partial.
Example C51_case : trading_tokens_to_pool_tokens u64_max u64_max 1 0 (10 ^ 9) BtoA Floor = Panic /\
  trading_tokens_to_pool_tokens u64_max 18 1 0 (10 ^ 9) BtoA Floor = Val 332041393326771929070000000000.
Proof. vm_compute. split; reflexivity. Qed.

(** C57. *)
Theorem C57_fees_exactly : forall f x, fees_wf f -> 0 <= x ->
  trading_fee f x = fee_of x (trade_fee_num f) (trade_fee_den f) /\
  owner_trading_fee f x = fee_of x (owner_trade_fee_num f) (owner_trade_fee_den f) /\
  owner_withdraw_fee f x = fee_of x (owner_withdraw_fee_num f) (owner_withdraw_fee_den f) /\
  host_fee f x = fee_of x (host_fee_num f) (host_fee_den f).
Proof. exact fees_exact. Qed.
Print Assumptions C57_fees_exactly.
Example C57_case :
  let f := mk_fees 1 2 1 3 1 4 1 5 in
  trading_fee f 61 = Val 30 /\ owner_trading_fee f 61 = Val 20 /\
  owner_withdraw_fee f 61 = Val 15 /\ host_fee f 61 = Val 12 /\ host_fee f 2 = Val 1.
Proof. vm_compute. repeat split; reflexivity. Qed.

(** C58.  A swap charges both fees on the offer, quotes the rest, and takes the
    fees on top of what the quote uses. *)
Theorem C58_swap_exactly : forall c source ss sd d f r,
  curve_wf c -> fees_wf f -> is_u64 source -> is_u64 ss -> is_u64 sd ->
  curve_swap c source ss sd d f = Val r <->
  exists tf of src dst,
    fee_of source (trade_fee_num f) (trade_fee_den f) = Val tf /\
    fee_of source (owner_trade_fee_num f) (owner_trade_fee_den f) = Val of /\
    tf + of <= source /\
    swap_without_fees c (source - (tf + of)) ss sd d = Val (src, dst) /\ dst <= sd /\
    r = mk_swap_result (ss + (src + (tf + of))) (sd - dst) (src + (tf + of)) dst tf of.
Proof. exact curve_swap_exact. Qed.
Print Assumptions C58_swap_exactly.

(** C58, one-sided operations: the trading fee on half of the amount. *)
Theorem C58_single_exactly : forall c source a b supply d f, fees_wf f -> is_u64 source ->
  curve_deposit_single c source a b supply d f =
    after_half_fee f source (fun s => calc_deposit_single c s a b supply d) /\
  curve_withdraw_single c source a b supply d f =
    after_half_fee f source (fun s => calc_withdraw_single c s a b supply d).
Proof. exact half_fee_both. Qed.
Print Assumptions C58_single_exactly.
(** Fees of 10 and 5 leave 85, which quotes 28 for 84; a one-sided 100 pays 5. *)
Example C58_case :
  curve_swap (ConstantPrice 3) 100 1000 500 AtoB (mk_fees 1 10 1 20 0 0 0 0)
    = Val (mk_swap_result 1099 472 99 28 10 5) /\
  swap_without_fees (ConstantPrice 3) 85 1000 500 AtoB = Val (84, 28) /\
  curve_deposit_single (ConstantPrice 1) 100 1000 0 1000 AtoB (mk_fees 1 10 1 20 0 0 0 0) = Val 95 /\
  calc_deposit_single (ConstantPrice 1) 95 1000 0 1000 AtoB = Val 95.
Proof. vm_compute. repeat split; reflexivity. Qed.

(** C59, constant price: swaps. *)
Theorem C59_price_swap : forall p s ss sd d, is_u64 p -> is_u64 s ->
  swap_without_fees (ConstantPrice p) s ss sd d = price_swap_quote p s d.
Proof. exact cprice_swap_quote. Qed.
Print Assumptions C59_price_swap.
(** C59, pool tokens for one token; the balances may be those after a swap. *)
Theorem C59_price_single : forall p s a b supply d,
  is_u64 p -> is_u128 s -> is_u128 a -> is_u128 b -> is_u64 supply ->
  calc_deposit_single (ConstantPrice p) s a b supply d = price_single_quote p s a b supply d Floor /\
  calc_withdraw_single (ConstantPrice p) s a b supply d = price_single_quote p s a b supply d Ceiling.
Proof. exact cprice_singles. Qed.
Print Assumptions C59_price_single.
(** C59, both tokens for pool tokens. *)
Theorem C59_price_both : forall p n supply a b r,
  is_u64 p -> is_u64 n -> is_u64 supply -> is_u64 a -> is_u64 b ->
  pool_tokens_to_trading_tokens (ConstantPrice p) n supply a b r = price_both_quote p n supply a b r.
Proof. exact cprice_both. Qed.
Print Assumptions C59_price_both.
(** C59, the reported value. *)
Theorem C59_price_value : forall p a b, is_u64 p -> is_u64 a -> is_u64 b ->
  normalized_value (ConstantPrice p) a b = Val (pool_value p a b / 2 * 10 ^ 12).
Proof. exact cprice_value. Qed.
Print Assumptions C59_price_value.
Example C59_case :
  swap_without_fees (ConstantPrice 7) 50 0 0 AtoB = Val (49, 7) /\
  swap_without_fees (ConstantPrice 7) 50 0 0 BtoA = Val (50, 350) /\
  calc_deposit_single (ConstantPrice 3) 100 1000 201 1000 BtoA = Val 187 /\
  calc_withdraw_single (ConstantPrice 3) 100 1000 201 1000 BtoA = Val 188 /\
  pool_tokens_to_trading_tokens (ConstantPrice 3) 100 1000 500 101 Ceiling = Val (41, 14) /\
  normalized_value (ConstantPrice u64_max) u64_max u64_max = Val (u64_max * 2 ^ 63 * 10 ^ 12).
Proof. vm_compute. repeat split; reflexivity. Qed.

(** C60, constant product: swaps. *)
Theorem C60_product_swap : forall s ss sd d, is_u64 s -> is_u64 ss -> is_u64 sd ->
  swap_without_fees ConstantProduct s ss sd d = product_swap_quote s ss sd.
Proof. exact cprod_swap_quote. Qed.
Print Assumptions C60_product_swap.
(** C60, both tokens for pool tokens; the stable curve uses the same shares. *)
Theorem C60_shares : forall n supply a b r, is_u64 n -> is_u64 supply -> is_u64 a -> is_u64 b ->
  pool_tokens_to_trading_tokens ConstantProduct n supply a b r = ratio_quote n supply a b r /\
  (forall amp, pool_tokens_to_trading_tokens (Stable amp) n supply a b r = ratio_quote n supply a b r).
Proof. exact both_quotes. Qed.
Print Assumptions C60_shares.
(** C60, one-sided operations: when there is a quote, and its value with the
    square root accurate to 10^-12. *)
Theorem C60_product_single : forall s a b supply d,
  is_u64 s -> 0 <= reserve_of d a b <= 2 * u64_max -> is_u64 supply ->
  (forall t, calc_deposit_single ConstantProduct s a b supply d = Val t ->
     0 < reserve_of d a b /\ product_deposit s (reserve_of d a b) supply Floor t) /\
  (forall t, calc_withdraw_single ConstantProduct s a b supply d = Val t ->
     0 < reserve_of d a b /\ s * 10 ^ 12 / reserve_of d a b <= 10 ^ 12 /\
     product_withdraw s (reserve_of d a b) supply Ceiling t) /\
  (0 < reserve_of d a b -> exists t, calc_deposit_single ConstantProduct s a b supply d = Val t) /\
  (0 < reserve_of d a b -> s * 10 ^ 12 / reserve_of d a b <= 10 ^ 12 ->
     exists t, calc_withdraw_single ConstantProduct s a b supply d = Val t).
Proof. exact cprod_singles. Qed.
Print Assumptions C60_product_single.
(** C60, the reported value is the geometric mean. *)
Theorem C60_product_value : forall a b, is_u64 a -> is_u64 b ->
  exists g, normalized_value ConstantProduct a b = Val g /\
    (a * b = 0 /\ g = 0 \/ 0 < a * b /\ root12 (a * b * 10 ^ 12) g).
Proof. exact cprod_value. Qed.
Print Assumptions C60_product_value.
(** Growing a reserve by 21% mints 10%; taking 19% burns 10%. *)
Example C60_case :
  swap_without_fees ConstantProduct 5 10 7 AtoB = Val (4, 2) /\
  pool_tokens_to_trading_tokens ConstantProduct 5 10 7 1 Ceiling = Val (4, 0) /\
  calc_deposit_single ConstantProduct 210 1000 5 1000 AtoB = Val 100 /\
  calc_withdraw_single ConstantProduct 190 1000 5 1000 AtoB = Val 100 /\
  calc_deposit_single ConstantProduct 210 5 1000 1000 BtoA = Val 100 /\
  normalized_value ConstantProduct 4 9 = Val (6 * 10 ^ 12) /\
  calc_withdraw_single ConstantProduct 1001 1000 5 1000 AtoB = Non.
Proof. vm_compute. repeat split; reflexivity. Qed.

(** C61, offset: a constant-product pool with the offset added to token B. *)
Theorem C61_offset_swap : forall o s ss sd d, is_u64 o -> is_u64 s -> is_u64 ss -> is_u64 sd ->
  swap_without_fees (Offset o) s ss sd d =
  match d with
  | AtoB => product_swap_quote s ss (sd + o)
  | BtoA => product_swap_quote s (ss + o) sd
  end.
Proof. exact offset_swap_quote. Qed.
Print Assumptions C61_offset_swap.
Theorem C61_offset_shift : forall o s a b supply n d r, is_u64 o -> is_u64 b ->
  pool_tokens_to_trading_tokens (Offset o) n supply a b r =
    pool_tokens_to_trading_tokens ConstantProduct n supply a (b + o) r /\
  calc_deposit_single (Offset o) s a b supply d = calc_deposit_single ConstantProduct s a (b + o) supply d /\
  calc_withdraw_single (Offset o) s a b supply d = calc_withdraw_single ConstantProduct s a (b + o) supply d /\
  normalized_value (Offset o) a b = normalized_value ConstantProduct a (b + o).
Proof. exact offset_shift. Qed.
Print Assumptions C61_offset_shift.
(** C61, offset: a token B balance that leaves no room for the offset fails every calculation. *)
Theorem C61_offset_overflow : forall o s a b supply n d r, u128_max < b + o ->
  swap_without_fees (Offset o) s a b AtoB = Non /\ swap_without_fees (Offset o) s b a BtoA = Non /\
  pool_tokens_to_trading_tokens (Offset o) n supply a b r = Non /\
  calc_deposit_single (Offset o) s a b supply d = Non /\
  calc_withdraw_single (Offset o) s a b supply d = Non /\ normalized_value (Offset o) a b = Non.
Proof. exact offset_overflow. Qed.
Print Assumptions C61_offset_overflow.
Example C61_overflow_case :
  pool_tokens_to_trading_tokens (Offset 1) 1 1 0 u128_max Floor = Non /\
  pool_tokens_to_trading_tokens (Offset 1) 1 1 0 (u128_max - 1) Floor = Val (0, u128_max).
Proof. vm_compute. split; reflexivity. Qed.
Example C61_case :
  swap_without_fees (Offset 100) 10 1000 5 AtoB = Val (10, 1) /\
  swap_without_fees (Offset 100) 10 5 1000 BtoA = Val (10, 86) /\
  pool_tokens_to_trading_tokens (Offset 100) 5 10 7 1 Floor = Val (3, 50) /\
  calc_deposit_single (Offset 100) 210 5 900 1000 BtoA = Val 100 /\
  calc_withdraw_single (Offset 100) 190 5 900 1000 BtoA = Val 100 /\
  normalized_value (Offset 8) 4 1 = Val (6 * 10 ^ 12).
Proof. vm_compute. repeat split; reflexivity. Qed.

(** C62, stable: swaps.  Without an early exit, in unbounded arithmetic. *)
Theorem C62_stable_swap : forall amp s ss sd d src dst,
  is_u64 amp -> is_u64 s -> is_u64 ss -> is_u64 sd ->
  swap_without_fees (Stable amp) s ss sd d = Val (src, dst) <-> stable_swap_quote amp s ss sd src dst.
Proof. exact stable_swap_iff. Qed.
Print Assumptions C62_stable_swap.
(** C62, one-sided operations. *)
Theorem C62_stable_single : forall amp s a b supply d,
  is_u64 amp -> is_u64 s -> is_u64 a -> is_u64 b -> is_u64 supply ->
  calc_deposit_single (Stable amp) s a b supply d = stable_single_quote amp s a b supply d true /\
  calc_withdraw_single (Stable amp) s a b supply d = stable_single_quote amp s a b supply d false.
Proof. exact stable_singles. Qed.
Print Assumptions C62_stable_single.
(** C62, the reported value. *)
Theorem C62_stable_value : forall amp a b, is_u64 amp -> is_u64 a -> is_u64 b ->
  normalized_value (Stable amp) a b =
  if u64_max <? 2 * amp then Non
  else if (amp =? 0) && (0 <? a + b) then Non
  else Val (invariant_d (2 * amp) a b * 10 ^ 12).
Proof. exact stable_value. Qed.
Print Assumptions C62_stable_value.
Example C62_case :
  swap_without_fees (Stable 100) 50 1000 1000 AtoB = Val (50, 50) /\
  swap_without_fees (Stable 1) 900 1000 100 AtoB = Val (900, 76) /\
  calc_deposit_single (Stable 10) 500 1000 1000 1000 AtoB = Val 247 /\
  calc_withdraw_single (Stable 10) 500 1000 1000 1000 BtoA = Val 255 /\
  normalized_value (Stable 10) 1000 500 = Val (1491 * 10 ^ 12).
Proof. vm_compute. repeat split; reflexivity. Qed.

(** C63.  The curves and supplies accepted at creation. *)
Theorem C63_curve_validation : forall c, curve_wf c ->
  (curve_validate c = Ok tt <->
   match c with
   | ConstantProduct | Stable _ => True
   | ConstantPrice p => 0 < p
   | Offset o => 0 < o
   | LinearPrice l => slope_num l <> 0 /\ slope_den l <> 0 /\ price_den l <> 0 /\
                      slope_den l <= slope_num l * 10 ^ 18
   end) /\
  (curve_validate c <> Ok tt -> curve_validate c = Err (ESwap InvalidCurve)).
Proof. exact validate_exact. Qed.
Print Assumptions C63_curve_validation.
Theorem C63_supply_validation : forall c a b,
  curve_validate_supply c a b =
  match c with
  | ConstantProduct | Stable _ => if (a =? 0) || (b =? 0) then Err (ESwap EmptySupply) else Ok tt
  | ConstantPrice _ | Offset _ => if a =? 0 then Err (ESwap EmptySupply) else Ok tt
  | LinearPrice _ => if b =? 0 then Err (ESwap EmptySupply)
                     else if a =? 0 then Ok tt else Err (ESwap InvalidSupply)
  end.
Proof. exact validate_supply_exact. Qed.
Print Assumptions C63_supply_validation.
Example C63_case :
  curve_validate (LinearPrice (mk_linear 1 (10 ^ 18) 0 1)) = Ok tt /\
  curve_validate (LinearPrice (mk_linear 1 (10 ^ 18 + 1) 0 1)) = Err (ESwap InvalidCurve) /\
  curve_validate (Offset 0) = Err (ESwap InvalidCurve) /\
  curve_validate_supply ConstantProduct 1 0 = Err (ESwap EmptySupply) /\
  curve_validate_supply (ConstantPrice 1) 1 0 = Ok tt.
Proof. vm_compute. repeat split; reflexivity. Qed.
