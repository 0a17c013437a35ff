(** curve/constant_price.rs; [p] is the curve's only field [token_b_price]. *)
From Verif Require Import Ints SplMath.

(** 23-56 *)
Definition trading_tokens_to_pool_tokens
    (p source swap_a swap_b pool_supply : Z) (d : trade_direction) (r : round_direction)
    : outcome Z :=
  let? given_value :=
    match d with
    | AtoB => Val source
    | BtoA => mul_in u256_max source p
    end in
  let? b_value := mul_in u256_max swap_b p in
  let? total_value := add_in u256_max b_value swap_a in
  match r with
  | Floor =>
      let? n := mul_in u256_max pool_supply given_value in
      let? q := cdiv n total_value in
      as_u128 q
  | Ceiling =>
      let? n := mul_in u256_max pool_supply given_value in
      let? (q, _) := checked_ceil_div u256_max n total_value in
      as_u128 q
  end.

(** 67-99 *)
Definition cprice_swap (p source : Z) (d : trade_direction) : outcome (Z * Z) :=
  let? (src, dst) :=
    match d with
    | BtoA => let? dst := mul_in u128_max source p in Val (source, dst)
    | AtoB =>
        let? dst := cdiv source p in
        let? remainder := crem source p in
        let? src := (if 0 <? remainder then csub source remainder else Val source) in
        Val (src, dst)
    end in
  let? src' := map_zero_to_none src in
  let? dst' := map_zero_to_none dst in
  Val (src', dst').

(** 212-231; the raw value of an spl PreciseNumber *)
Definition cprice_normalized_value (p swap_a swap_b : Z) : outcome Z :=
  let? b_value := mul_in u128_max swap_b p in
  let? value :=
    (if u128_max - u64_max <? sat_sub b_value u64_max
     then
       let? hb := cdiv b_value 2 in
       let? ha := cdiv swap_a 2 in
       add_in u128_max hb ha
     else
       let? s := add_in u128_max swap_a b_value in
       cdiv s 2) in
  spl_new value.

(** 105-145 *)
Definition cprice_pool_tokens_to_trading_tokens
    (p pool_tokens pool_supply swap_a swap_b : Z) (r : round_direction) : outcome (Z * Z) :=
  let? nv := cprice_normalized_value p swap_a swap_b in
  let? total_value := spl_to_imprecise nv in
  match r with
  | Floor =>
      let? n := mul_in u128_max pool_tokens total_value in
      let? a := cdiv n pool_supply in
      let? n' := mul_in u128_max pool_tokens total_value in
      let? b0 := cdiv n' p in
      let? b := cdiv b0 pool_supply in
      Val (a, b)
  | Ceiling =>
      let? n := mul_in u128_max pool_tokens total_value in
      let? (a, _) := checked_ceil_div u128_max n pool_supply in
      let? n' := mul_in u128_max pool_tokens total_value in
      let? (value_as_b, _) := checked_ceil_div u128_max n' p in
      let? (b, _) := checked_ceil_div u128_max value_as_b pool_supply in
      Val (a, b)
  end.

(** 150-167 *)
Definition cprice_deposit_single (p source swap_a swap_b pool_supply : Z) (d : trade_direction)
    : outcome Z :=
  trading_tokens_to_pool_tokens p source swap_a swap_b pool_supply d Floor.

(** 169-186 *)
Definition cprice_withdraw_single (p source swap_a swap_b pool_supply : Z) (d : trade_direction)
    : outcome Z :=
  trading_tokens_to_pool_tokens p source swap_a swap_b pool_supply d Ceiling.

(** 188-194 *)
Definition cprice_validate (p : Z) : result unit := guard (p =? 0) (ESwap InvalidCurve).

(** 196-201 *)
Definition cprice_validate_supply (a b : Z) : result unit := guard (a =? 0) (ESwap EmptySupply).
