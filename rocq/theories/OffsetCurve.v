(** curve/offset.rs; [o] is the curve's only field [token_b_offset]. *)
From Verif Require Import Ints SplMath ConstantProduct.

(** 40-57 *)
Definition offset_swap (o source swap_source swap_dest : Z) (d : trade_direction)
    : outcome (Z * Z) :=
  let? ss := match d with AtoB => Val swap_source | BtoA => add_in u128_max swap_source o end in
  let? sd := match d with AtoB => add_in u128_max swap_dest o | BtoA => Val swap_dest end in
  cprod_swap source ss sd.

(** 61-77 *)
Definition offset_pool_tokens_to_trading_tokens
    (o pool_tokens pool_supply swap_a swap_b : Z) (r : round_direction) : outcome (Z * Z) :=
  let? b := add_in u128_max swap_b o in
  ratio_pool_tokens_to_trading_tokens pool_tokens pool_supply swap_a b r.

(** 81-98 *)
Definition offset_deposit_single (o source swap_a swap_b pool_supply : Z) (d : trade_direction)
    : outcome Z :=
  let? b := add_in u128_max swap_b o in
  cprod_deposit_single source swap_a b pool_supply d Floor.

(** 100-117 *)
Definition offset_withdraw_single (o source swap_a swap_b pool_supply : Z) (d : trade_direction)
    : outcome Z :=
  let? b := add_in u128_max swap_b o in
  cprod_withdraw_single source swap_a b pool_supply d Ceiling.

(** 119-125 *)
Definition offset_validate (o : Z) : result unit := guard (o =? 0) (ESwap InvalidCurve).
(** 127-132 *)
Definition offset_validate_supply (a b : Z) : result unit := guard (a =? 0) (ESwap EmptySupply).

(** 145-155 *)
Definition offset_normalized_value (o swap_a swap_b : Z) : outcome Z :=
  let? b := add_in u128_max swap_b o in
  cprod_normalized_value swap_a b.
