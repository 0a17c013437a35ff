(** The quotes of the curves in plain arithmetic: no checked operations, no
    fixed-point numbers, no loops with early exits. *)
From Verif Require Import Ints Fees LinearCurve SwapCurve Spec.

(** Rounding up, except that quotients below one are rounded to the nearest. *)
Definition up_div (a b : Z) : Z :=
  if a <? b then (if b <=? 2 * a then 1 else 0) else (a + b - 1) / b.

Definition round_div (r : round_direction) (a b : Z) : Z :=
  match r with Floor => a / b | Ceiling => up_div a b end.

(** A fee is nothing when the rate or the amount is, otherwise at least one unit. *)
Definition fee_of (amount num den : Z) : outcome Z :=
  if (num =? 0) || (amount =? 0) then Val 0
  else if (u128_max <? amount * num) || (den =? 0) then Non
  else Val (Z.max 1 (amount * num / den)).

(** ** Constant price *)

Definition price_swap_quote (p source : Z) (d : trade_direction) : outcome (Z * Z) :=
  match d with
  | AtoB => if (p =? 0) || (source <? p) then Non else Val (source - source mod p, source / p)
  | BtoA => if source * p =? 0 then Non else Val (source, source * p)
  end.

(** Pool tokens for an amount of one of the tokens; the program aborts when they
    do not fit into 128 bits. *)
Definition price_single_quote (p source a b supply : Z) (d : trade_direction) (r : round_direction) : outcome Z :=
  if pool_value p a b =? 0 then Non
  else let q := round_div r (supply * value_of p source d) (pool_value p a b) in
       if q <=? u128_max then Val q else Panic.

(** Both tokens for an amount of pool tokens: each side is half of the share. *)
Definition price_both_quote (p n supply a b : Z) (r : round_direction) : outcome (Z * Z) :=
  let half := pool_value p a b / 2 in
  if (u128_max <? n * half) || (supply =? 0) || (p =? 0) then Non
  else Val (round_div r (n * half) supply, round_div r (round_div r (n * half) p) supply).

(** ** Constant product *)

Definition product_swap_quote (source ss sd : Z) : outcome (Z * Z) :=
  if (u128_max <? ss * sd) || (ss + source =? 0) then Non
  else if ss * sd <? ss + source then
    (* the new reserve counts as nothing *)
    if (ss =? 0) && (0 <? sd) then Val (0, sd) else Non
  else
    let nd := (ss * sd + (ss + source) - 1) / (ss + source) in
    let ns := (ss * sd + nd - 1) / nd in
    if nd =? sd then Non else Val (ns - ss, sd - nd).

(** Rounded-up shares below one unit count as nothing here. *)
Definition share_of (r : round_direction) (n a supply : Z) : Z :=
  match r with
  | Floor => n * a / supply
  | Ceiling => if n * a <? supply then 0 else (n * a + supply - 1) / supply
  end.
Definition ratio_quote (n supply a b : Z) (r : round_direction) : outcome (Z * Z) :=
  if supply =? 0 then Non else Val (share_of r n a supply, share_of r n b supply).

(** [g] is the square root of [x], both in units of 10^-12, up to one unit. *)
Definition root12 (x g : Z) : Prop :=
  Z.sqrt (x * 10 ^ 12 + 5 * 10 ^ 11) <= g <= Z.sqrt (x * 10 ^ 12 + 5 * 10 ^ 11) + 1.

(** ** Stable *)

(** One Newton step for the invariant [D], for leverage [l], reserves [a] and [b]. *)
Definition d_product (a b d : Z) : Z := d * d / (2 * a + 1) * d / (2 * b + 1).
Definition d_step (l a b d : Z) : Z :=
  (l * (a + b) + 2 * d_product a b d) * d / ((l - 1) * d + 3 * d_product a b d).
Definition invariant_d (l a b : Z) : Z := Nat.iter 32 (d_step l a b) (a + b).

(** One Newton step for the other reserve. *)
Definition y_den (l x d y : Z) : Z := 2 * y + (x + d / l) - d.
Definition y_num (l x d y : Z) : Z := y * y + d * d * d / (4 * x * l).
Definition y_step (l x d y : Z) : Z := y_num l x d y / y_den l x d y.

(** The other reserve belonging to the invariant [d] and a reserve of [x]: 32 steps
    down from [d], none of which divides by zero, goes negative or needs more than
    256 bits. *)
Definition other_reserve (l x d y : Z) : Prop :=
  x <> 0 /\ y = Nat.iter 32 (y_step l x d) d /\ y <= u128_max /\
  forall k, (k < 32)%nat ->
    0 < y_den l x d (Nat.iter k (y_step l x d) d) /\
    y_num l x d (Nat.iter k (y_step l x d) d) <= u256_max.

Definition stable_swap_quote (amp source ss sd src dst : Z) : Prop :=
  1 <= amp /\ 2 * amp <= u64_max /\ src = source /\ 0 <= dst /\
  other_reserve (2 * amp) (ss + source) (invariant_d (2 * amp) ss sd) (sd - dst).

(** ** One-sided operations on a constant-product pool *)

Definition round12 (r : round_direction) (x : Z) : Z :=
  match r with Floor => x / 10 ^ 12 | Ceiling => (x + 10 ^ 12 - 1) / 10 ^ 12 end.

(** A deposit mints  supply * (sqrt (1 + source / reserve) - 1). *)
Definition product_deposit (source reserve supply : Z) (r : round_direction) (t : Z) : Prop :=
  exists g, root12 (10 ^ 12 + source * 10 ^ 12 / reserve) g /\ 10 ^ 12 <= g /\
    t = round12 r (supply * (g - 10 ^ 12)).

(** A withdrawal burns  supply * (1 - sqrt (1 - source / reserve)). *)
Definition product_withdraw (source reserve supply : Z) (r : round_direction) (t : Z) : Prop :=
  let x := 10 ^ 12 - source * 10 ^ 12 / reserve in
  exists g, (x = 0 /\ g = 0 \/ 0 < x /\ root12 x g) /\ 0 <= g <= 10 ^ 12 /\
    t = round12 r (supply * (10 ^ 12 - g)).

(** Reserve on the side of the traded token. *)
Definition reserve_of (d : trade_direction) (a b : Z) : Z := match d with AtoB => a | BtoA => b end.

(** ** One-sided operations on a stable pool: shares of the change of the invariant *)

Definition stable_single_quote (amp source a b supply : Z) (d : trade_direction) (grow : bool) : outcome Z :=
  let l := 2 * amp in
  if source =? 0 then Val 0
  else if (amp =? 0) || (u64_max <? l) || (negb grow && (reserve_of d a b <? source)) then Non
  else
    let s := if grow then source else - source in
    let d0 := invariant_d l a b in
    let d1 := match d with AtoB => invariant_d l (a + s) b | BtoA => invariant_d l (b + s) a end in
    let change := if grow then d1 - d0 else d0 - d1 in
    if (d0 =? 0) || (change <? 0) then Non
    else
      let q := if grow then change * supply / d0 else round12 Ceiling (change * supply * 10 ^ 12 / d0) in
      if q <=? u128_max then Val q else Panic.

(** ** Fees around the quotes *)

(** A one-sided amount pays the trading fee on half of it (at least one unit). *)
Definition after_half_fee (f : fees) (source : Z) (quote : Z -> outcome Z) : outcome Z :=
  if source =? 0 then Val 0
  else match fee_of (Z.max 1 (source / 2)) (trade_fee_num f) (trade_fee_den f) with
       | Val fee => if source <? fee then Non else quote (source - fee)
       | _ => Non
       end.
