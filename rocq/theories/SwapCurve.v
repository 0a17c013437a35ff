(** curve/base.rs: the sum of all curves and the fee-aware calculations, plus
    the default methods of curve/calculator.rs. *)
From Verif Require Import Ints Fees LinearCurve ConstantPrice ConstantProduct OffsetCurve StableCurve.

(** base.rs 62-71: [SwapCurve] = a curve type and a calculator.  Only pairs of a
    type and its own calculator are constructed by the program. *)
Inductive curve : Type :=
| ConstantProduct
| ConstantPrice (token_b_price : Z)
| Stable (amp : Z)
| Offset (token_b_offset : Z)
| LinearPrice (c : linear_curve).

(** calculator.rs 88-94 and the implementations *)
Definition swap_without_fees (c : curve) (source swap_source swap_dest : Z) (d : trade_direction)
    : outcome (Z * Z) :=
  match c with
  | ConstantProduct => cprod_swap source swap_source swap_dest
  | ConstantPrice p => cprice_swap p source d
  | Stable amp => stable_swap amp source swap_source swap_dest
  | Offset o => offset_swap o source swap_source swap_dest d
  | LinearPrice l => linear_swap l source swap_source swap_dest d
  end.

(** calculator.rs 97-99; no curve overrides it *)
Definition new_pool_supply (c : curve) : Z := INITIAL_SWAP_POOL_AMOUNT.

(** calculator.rs 103-110 and the implementations; linear_price.rs 336-354 *)
Definition pool_tokens_to_trading_tokens (c : curve)
    (pool_tokens pool_supply swap_a swap_b : Z) (r : round_direction) : outcome (Z * Z) :=
  match c with
  | ConstantProduct | Stable _ =>
      ratio_pool_tokens_to_trading_tokens pool_tokens pool_supply swap_a swap_b r
  | ConstantPrice p => cprice_pool_tokens_to_trading_tokens p pool_tokens pool_supply swap_a swap_b r
  | Offset o => offset_pool_tokens_to_trading_tokens o pool_tokens pool_supply swap_a swap_b r
  | LinearPrice _ => Non
  end.

(** calculator.rs 120-128; constant_product.rs 204-221; linear_price.rs 360-370 *)
Definition calc_deposit_single (c : curve) (source swap_a swap_b pool_supply : Z)
    (d : trade_direction) : outcome Z :=
  match c with
  | ConstantProduct => cprod_deposit_single source swap_a swap_b pool_supply d Floor
  | ConstantPrice p => cprice_deposit_single p source swap_a swap_b pool_supply d
  | Stable amp => stable_deposit_single amp source swap_a swap_b pool_supply d
  | Offset o => offset_deposit_single o source swap_a swap_b pool_supply d
  | LinearPrice _ => Non
  end.

(** calculator.rs 139-147; constant_product.rs 223-240; linear_price.rs 376-389 *)
Definition calc_withdraw_single (c : curve) (source swap_a swap_b pool_supply : Z)
    (d : trade_direction) : outcome Z :=
  match c with
  | ConstantProduct => cprod_withdraw_single source swap_a swap_b pool_supply d Ceiling
  | ConstantPrice p => cprice_withdraw_single p source swap_a swap_b pool_supply d
  | Stable amp => stable_withdraw_single amp source swap_a swap_b pool_supply d
  | Offset o => offset_withdraw_single o source swap_a swap_b pool_supply d
  | LinearPrice _ => Non
  end.

(** calculator.rs 150 and the implementations *)
Definition curve_validate (c : curve) : result unit :=
  match c with
  | ConstantProduct | Stable _ => Ok tt
  | ConstantPrice p => cprice_validate p
  | Offset o => offset_validate o
  | LinearPrice l => linear_validate l
  end.

(** calculator.rs 155-163 (default) and the overrides *)
Definition curve_validate_supply (c : curve) (a b : Z) : result unit :=
  match c with
  | ConstantProduct | Stable _ =>
      do! _ := guard (a =? 0) (ESwap EmptySupply) in
      guard (b =? 0) (ESwap EmptySupply)
  | ConstantPrice _ => cprice_validate_supply a b
  | Offset _ => offset_validate_supply a b
  | LinearPrice _ => linear_validate_supply a b
  end.

(** calculator.rs 169-171 (default); offset.rs 139-141; linear_price.rs 414-416 *)
Definition allows_deposits (c : curve) : bool :=
  match c with
  | ConstantProduct | ConstantPrice _ | Stable _ => true
  | Offset _ | LinearPrice _ => false
  end.

Definition normalized_value (c : curve) (a b : Z) : outcome Z :=
  match c with
  | ConstantProduct => cprod_normalized_value a b
  | ConstantPrice p => cprice_normalized_value p a b
  | Stable amp => stable_normalized_value amp a b
  | Offset o => offset_normalized_value o a b
  | LinearPrice l => linear_normalized_value l a b
  end.

(** base.rs 46-59 *)
Record swap_result : Type := mk_swap_result {
  new_swap_source_amount : Z;
  new_swap_destination_amount : Z;
  source_amount_swapped : Z;
  destination_amount_swapped : Z;
  trade_fee : Z;
  owner_fee : Z
}.

(** base.rs 75-110 *)
Definition curve_swap (c : curve) (source swap_source swap_dest : Z) (d : trade_direction)
    (f : fees) : outcome swap_result :=
  let? trade_fee := trading_fee f source in
  let? owner_fee := owner_trading_fee f source in
  let? total_fees := add_in u128_max trade_fee owner_fee in
  let? less_fees := csub source total_fees in
  let? (src0, dst) := swap_without_fees c less_fees swap_source swap_dest d in
  let? src := add_in u128_max src0 total_fees in
  let? new_source := add_in u128_max swap_source src in
  let? new_dest := csub swap_dest dst in
  Val (mk_swap_result new_source new_dest src dst trade_fee owner_fee).

(** base.rs 113-138 *)
Definition curve_deposit_single (c : curve) (source swap_a swap_b pool_supply : Z)
    (d : trade_direction) (f : fees) : outcome Z :=
  if source =? 0 then Val 0
  else
    let? h := cdiv source 2 in
    let half_source := Z.max 1 h in
    let? fee := trading_fee f half_source in
    let? source' := csub source fee in
    calc_deposit_single c source' swap_a swap_b pool_supply d.

(** base.rs 141-166 *)
Definition curve_withdraw_single (c : curve) (source swap_a swap_b pool_supply : Z)
    (d : trade_direction) (f : fees) : outcome Z :=
  if source =? 0 then Val 0
  else
    let? h := cdiv source 2 in
    let half_source := Z.max 1 h in
    let? fee := trading_fee f half_source in
    let? source' := csub source fee in
    calc_withdraw_single c source' swap_a swap_b pool_supply d.
