(** curve/fees.rs *)
From Verif Require Import Ints.

(** 13-42 *)
Record fees : Type := mk_fees {
  trade_fee_num : Z;
  trade_fee_den : Z;
  owner_trade_fee_num : Z;
  owner_trade_fee_den : Z;
  owner_withdraw_fee_num : Z;
  owner_withdraw_fee_den : Z;
  host_fee_num : Z;
  host_fee_den : Z
}.

(** 45-62 *)
Definition calculate_fee (amount num den : Z) : outcome Z :=
  if (num =? 0) || (amount =? 0) then Val 0
  else
    let? p := mul_in u128_max amount num in
    let? fee := cdiv p den in
    if fee =? 0 then Val 1 else Val fee.

(** 64-72 *)
Definition validate_fraction (num den : Z) : result unit :=
  if (den =? 0) && (num =? 0) then Ok tt
  else if den <=? num then Err (ESwap InvalidFee)
  else Ok tt.

(** 76-82; [u128::try_from] of a [u64] never fails *)
Definition owner_withdraw_fee (f : fees) (pool_tokens : Z) : outcome Z :=
  calculate_fee pool_tokens (owner_withdraw_fee_num f) (owner_withdraw_fee_den f).
(** 85-91 *)
Definition trading_fee (f : fees) (tokens : Z) : outcome Z :=
  calculate_fee tokens (trade_fee_num f) (trade_fee_den f).
(** 94-100 *)
Definition owner_trading_fee (f : fees) (tokens : Z) : outcome Z :=
  calculate_fee tokens (owner_trade_fee_num f) (owner_trade_fee_den f).
(** 104-110 *)
Definition host_fee (f : fees) (owner_fee : Z) : outcome Z :=
  calculate_fee owner_fee (host_fee_num f) (host_fee_den f).

(** 113-125 *)
Definition fees_validate (f : fees) : result unit :=
  do! _ := validate_fraction (trade_fee_num f) (trade_fee_den f) in
  do! _ := validate_fraction (owner_trade_fee_num f) (owner_trade_fee_den f) in
  do! _ := validate_fraction (owner_withdraw_fee_num f) (owner_withdraw_fee_den f) in
  validate_fraction (host_fee_num f) (host_fee_den f).
