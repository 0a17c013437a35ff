(** Vocabulary of the property statements that is not part of the model. *)
From Verif Require Import Ints DfsPrecise Fees LinearCurve SwapCurve Codec.

(** All fields are 64-bit integers, as in the Rust types. *)
Definition fees_wf (f : fees) : Prop :=
  is_u64 (trade_fee_num f) /\ is_u64 (trade_fee_den f) /\
  is_u64 (owner_trade_fee_num f) /\ is_u64 (owner_trade_fee_den f) /\
  is_u64 (owner_withdraw_fee_num f) /\ is_u64 (owner_withdraw_fee_den f) /\
  is_u64 (host_fee_num f) /\ is_u64 (host_fee_den f).

Definition linear_wf (l : linear_curve) : Prop :=
  is_u64 (slope_num l) /\ is_u64 (slope_den l) /\ is_u64 (price_num l) /\ is_u64 (price_den l).

Definition curve_wf (c : curve) : Prop :=
  match c with
  | ConstantProduct => True
  | ConstantPrice x | Stable x | Offset x => is_u64 x
  | LinearPrice l => linear_wf l
  end.

(** A fee fraction that may be stored: absent (0/0) or strictly below one. *)
Definition proper_fraction (num den : Z) : Prop := (num = 0 /\ den = 0) \/ num < den.

(** Value of the holdings of a constant-price pool, in token A. *)
Definition pool_value (price a b : Z) : Z := a + price * b.

(** Value of an amount of the token that is being traded, in token A. *)
Definition value_of (price amount : Z) (d : trade_direction) : Z :=
  match d with AtoB => amount | BtoA => price * amount end.

(** ** The linear price line in exact arithmetic.
    The price of the token at position [b] is  price_num/price_den + slope_num/slope_den * b
    and the collateral for all tokens up to [b] is the area under that line. *)

(** Exact collateral for [b] whole tokens, as a fraction [cost_num / cost_den]. *)
Definition cost_num (c : linear_curve) (b : Z) : Z :=
  slope_num c * price_den c * b * b + 2 * slope_den c * price_num c * b.
Definition cost_den (c : linear_curve) : Z := 2 * slope_den c * price_den c.

(** The same for [b] units of 10^-18 tokens; the denominator is cost_den * ONE^2. *)
Definition cost2 (c : linear_curve) (b : Z) : Z :=
  slope_num c * price_den c * b * b + 2 * slope_den c * price_num c * b * ONE.

(** Price at [b] units of 10^-18 tokens, times slope_den * price_den * ONE. *)
Definition price_num_at (c : linear_curve) (b : Z) : Z :=
  price_num c * slope_den c * ONE + slope_num c * price_den c * b.

(** Square of the exact price when [a] collateral is held, times price_den^2 * slope_den. *)
Definition exact_disc (c : linear_curve) (a : Z) : Z :=
  price_num c * price_num c * slope_den c + 2 * slope_num c * a * price_den c * price_den c.

(** The program's fixed-point version of that square (two truncated terms). *)
Definition disc (c : linear_curve) (a : Z) : Z :=
  price_num c * price_num c * ONE / (price_den c * price_den c) +
  2 * slope_num c * a * ONE / slope_den c.

(** ** Stored pools *)

(** The values a pool state can hold, by the Rust types of its fields. *)
Definition swap_state_wf (s : swap_state) : Prop :=
  is_u8 (st_bump_seed s) /\ is_pubkey (st_token_program_id s) /\
  is_pubkey (st_token_a s) /\ is_pubkey (st_token_b s) /\ is_pubkey (st_pool_mint s) /\
  is_pubkey (st_token_a_mint s) /\ is_pubkey (st_token_b_mint s) /\
  is_pubkey (st_pool_fee_account s) /\ fees_wf (st_fees s) /\ curve_wf (st_curve s).

(** The curve-type bytes that exist. *)
Definition known_tag (t : Z) : Prop := t = 0 \/ t = 1 \/ t = 2 \/ t = 3 \/ t = 30.

(** Amounts on the A and the B side when trading in the given direction. *)
Definition side_a (d : trade_direction) (src dst : Z) : Z := match d with AtoB => src | BtoA => dst end.
Definition side_b (d : trade_direction) (src dst : Z) : Z := match d with AtoB => dst | BtoA => src end.
