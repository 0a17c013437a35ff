(** curve/constant_product.rs *)
From Verif Require Import Ints SplMath.

(** 27-46 *)
Definition cprod_swap (source swap_source swap_dest : Z) : outcome (Z * Z) :=
  let? invariant := mul_in u128_max swap_source swap_dest in
  let? new_source0 := add_in u128_max swap_source source in
  let? (new_dest, new_source) := checked_ceil_div u128_max invariant new_source0 in
  let? src := csub new_source swap_source in
  let? dst0 := csub swap_dest new_dest in
  let? dst := map_zero_to_none dst0 in
  Val (src, dst).

(** [if remainder > 0 && amount > 0 { amount += 1 }] (73-87); the unchecked
    increment panics on overflow *)
Definition bump_if_inexact (amount remainder : Z) : outcome Z :=
  if (0 <? remainder) && (0 <? amount) then add_or_panic u128_max amount 1 else Val amount.

(** 53-93; shared verbatim by curve/stable.rs 164-205 *)
Definition ratio_pool_tokens_to_trading_tokens
    (pool_tokens pool_supply swap_a swap_b : Z) (r : round_direction) : outcome (Z * Z) :=
  let? na := mul_in u128_max pool_tokens swap_a in
  let? a := cdiv na pool_supply in
  let? nb := mul_in u128_max pool_tokens swap_b in
  let? b := cdiv nb pool_supply in
  match r with
  | Floor => Val (a, b)
  | Ceiling =>
      let? na' := mul_in u128_max pool_tokens swap_a in
      let? ra := crem na' pool_supply in
      let? a' := bump_if_inexact a ra in
      let? nb' := mul_in u128_max pool_tokens swap_b in
      let? rb := crem nb' pool_supply in
      let? b' := bump_if_inexact b rb in
      Val (a', b')
  end.

Definition round_precise (r : round_direction) (x : Z) : outcome Z :=
  match r with
  | Floor => let? f := spl_floor x in spl_to_imprecise f
  | Ceiling => let? c := spl_ceiling x in spl_to_imprecise c
  end.

(** 100-124 *)
Definition cprod_deposit_single (source swap_a swap_b pool_supply : Z)
    (d : trade_direction) (r : round_direction) : outcome Z :=
  let swap_source := match d with AtoB => swap_a | BtoA => swap_b end in
  let? ss := spl_new swap_source in
  let? s := spl_new source in
  let? ratio := spl_div s ss in
  let? one := spl_new 1 in
  let? base := spl_add one ratio in
  let? sq := spl_sqrt base in
  let? root := spl_sub sq one in
  let? supply := spl_new pool_supply in
  let? tokens := spl_mul supply root in
  round_precise r tokens.

(** 131-155 *)
Definition cprod_withdraw_single (source swap_a swap_b pool_supply : Z)
    (d : trade_direction) (r : round_direction) : outcome Z :=
  let swap_source := match d with AtoB => swap_a | BtoA => swap_b end in
  let? ss := spl_new swap_source in
  let? s := spl_new source in
  let? ratio := spl_div s ss in
  let? one := spl_new 1 in
  let? base := spl_sub one ratio in
  let? sq := spl_sqrt base in
  let? root := spl_sub one sq in
  let? supply := spl_new pool_supply in
  let? tokens := spl_mul supply root in
  round_precise r tokens.

(** 162-171 *)
Definition cprod_normalized_value (swap_a swap_b : Z) : outcome Z :=
  let? a := spl_new swap_a in
  let? b := spl_new swap_b in
  let? ab := spl_mul a b in
  spl_sqrt ab.
