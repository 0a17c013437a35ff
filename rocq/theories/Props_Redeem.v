(** Selling tokens back to a linear pool and buying what it holds: C78, C79. *)
From Verif Require Import Ints DfsPrecise Fees LinearCurve SwapCurve Codec Token Processor Api History Spec LedgerSpec LiveSpec BlockSpec LockSpec
  LinearProps LinearRound RedeemFacts OfferFacts SmallSale.

(** C78, refuted: 10^9 units of collateral buy 786 tokens; 100 of them, worth more than
    10^8 units by the price line, cannot be sold although the reserve covers 999 tokens.
    The position estimated from the reserve is 147 tokens too high. *)
Theorem C78_can_sell_refuted : exists c s r n,
  linear_wf c /\ linear_validate c = Ok tt /\ is_u64 s /\ is_u64 n /\
  curve_swap (LinearPrice c) s 0 1000000 AtoB no_fees = Val r /\
  n <= destination_amount_swapped r /\
  curve_swap (LinearPrice c) n (new_swap_destination_amount r) (new_swap_source_amount r) BtoA no_fees = Non /\
  cost_num c 999 <= cost_den c * new_swap_source_amount r /\
  100000000 * cost_den c <= cost_num c 999 - cost_num c (999 - n).
Proof. exact cannot_sell. Qed.
Print Assumptions C78_can_sell_refuted.

(** C78.  An offer above the estimated position sells the whole position for the whole
    reserve, unless the position rounds to no token. *)
Theorem C78_exit_partial : forall c f n ss a b0, linear_wf c -> linear_validate c = Ok tt -> feeless f ->
  is_u64 n -> is_u64 ss -> is_u64 a -> 0 < a ->
  b_value_with_amt_a_locked c (a * ONE) true = Val b0 -> b0 < n * ONE -> ONE <= 2 * b0 ->
  exists k, 2 * k * ONE - ONE <= 2 * b0 < 2 * k * ONE + ONE /\
    curve_swap (LinearPrice c) n ss a BtoA f = Val (mk_swap_result (ss + k) 0 k a 0 0).
Proof. exact exit_pays. Qed.
Print Assumptions C78_exit_partial.

(** C78.  Otherwise, with [e] the whole-token position reached, the sale goes through if
    the collateral for [e] tokens leaves one unit of the reserve... *)
Theorem C78_sale_when_partial : forall c f n ss a b0 e,
  linear_wf c -> linear_validate c = Ok tt -> feeless f ->
  is_u64 n -> is_u64 ss -> is_u64 a -> 0 < n ->
  b_value_with_amt_a_locked c (a * ONE) true = Val b0 -> n * ONE <= b0 ->
  (e - 1) * ONE < b0 - n * ONE <= e * ONE ->
  cost_num c e * ONE + price_den c <= cost_den c * ((a - 1) * ONE) ->
  exists r, curve_swap (LinearPrice c) n ss a BtoA f = Val r.
Proof. exact sale_succeeds. Qed.
Print Assumptions C78_sale_when_partial.

(** ... and, up to 2 * 10^-18 units, only then. *)
Theorem C78_sale_only_when_partial : forall c f n ss a b0 e r, linear_wf c -> feeless f ->
  is_u64 n -> is_u64 ss -> is_u64 a ->
  b_value_with_amt_a_locked c (a * ONE) true = Val b0 -> n * ONE <= b0 ->
  (e - 1) * ONE < b0 - n * ONE <= e * ONE ->
  curve_swap (LinearPrice c) n ss a BtoA f = Val r ->
  cost_num c e * ONE < cost_den c * ((a - 1) * ONE + 2).
Proof. exact sale_succeeds_only. Qed.
Print Assumptions C78_sale_only_when_partial.

(** C78.  So tokens that the reserve covers can be sold whenever all but one of them outweigh the
    inexactness of the square root ([blur]) and what a unit of collateral buys ([one_unit]); except for the
    rare amounts of collateral at which every swap aborts (C121). *)
Theorem C78_covered_partial : forall c f X g u n ss a, linear_wf c -> linear_validate c = Ok tt -> feeless f ->
  blur c X g -> one_unit c u -> is_u64 n -> is_u64 ss -> is_u64 a -> ~ blocked c a ->
  cost2_den c * a < cost2 c X -> cost2 c (n * ONE) <= cost2_den c * a -> g + u + 2 * 10 ^ 9 <= (n - 1) * ONE ->
  exists r, curve_swap (LinearPrice c) n ss a BtoA f = Val r.
Proof. exact sale_accepted. Qed.
Print Assumptions C78_covered_partial.

(** The same on the ledger, for a holder of the tokens and without a limit. *)
Theorem C78_holder_partial : forall e signers w pool authority s c user source dest rest n x X g u,
  env_ok e -> reachable e w -> signers_ok e signers ->
  pool_at w pool s -> st_curve s = LinearPrice c -> find_pda e pool = Some (authority, st_bump_seed s) ->
  is_u64 n -> In user signers -> single_signer w user -> single_signer w authority ->
  thawed w (st_token_a s) -> thawed w (st_token_b s) -> wallet w source user (st_token_b_mint s) x ->
  accepts w dest (st_token_a_mint s) (balance w (st_token_a s)) -> dest <> st_token_a s ->
  n <= x -> balance w (st_token_b s) + n <= u64_max ->
  blur c X g -> one_unit c u -> ~ blocked c (balance w (st_token_a s)) ->
  cost2_den c * balance w (st_token_a s) < cost2 c X -> cost2 c (n * ONE) <= cost2_den c * balance w (st_token_a s) ->
  g + u + 2 * 10 ^ 9 <= (n - 1) * ONE ->
  exists w', exec e signers w (Swap (pool :: authority :: user :: source :: st_token_b s :: st_token_a s :: dest
    :: st_pool_mint s :: st_pool_fee_account s :: TOKEN_PROGRAM_ID :: rest) n 0) = Ok w'.
Proof. exact holder_sells. Qed.
Print Assumptions C78_holder_partial.

(** The conditions for two tokens or more, on the curve of the example ledger (slope 1/2, price 50) with
    1000 units in the vault. *)
Example C78_covered_case : let c := mk_linear 1 2 50 1 in
  blur c (100 * ONE) (2 * 10 ^ 11) /\ one_unit c (2 * 10 ^ 16) /\ cost2_den c * 1000 < cost2 c (100 * ONE) /\
  cost2 c (2 * ONE) <= cost2_den c * 1000 /\ 2 * 10 ^ 11 + 2 * 10 ^ 16 + 2 * 10 ^ 9 <= (2 - 1) * ONE /\
  curve_swap (LinearPrice c) 2 4982 1000 BtoA no_fees = Val (mk_swap_result 4984 923 2 77 0 0).
Proof. vm_compute. intuition congruence. Qed.

(** C78 in exact prices.  [x] is at least the exact position of a pool holding [a].
    Selling [n] tokens pays, up to one unit, what the top [m] tokens are worth, where
    [m] is smaller than [n] by one token and by 2^-31 of the price over the slope. *)
Theorem C78_sale_pays_partial : forall c f n ss a b0 x m,
  linear_wf c -> linear_validate c = Ok tt -> feeless f ->
  is_u64 n -> is_u64 ss -> is_u64 a -> 0 < n ->
  b_value_with_amt_a_locked c (a * ONE) true = Val b0 -> n * ONE <= b0 ->
  ONE * ONE * cost_den c * a <= cost2 c x -> m * ONE <= x ->
  price_num_at c x <= (2 ^ 31 - 1) * (slope_num c * price_den c * (n - 1 - m) * ONE
                                       - 2 * slope_den c * price_den c) ->
  cost2 c (x - m * ONE) + price_den c * ONE <= ONE * ONE * cost_den c * (a - 1) -> 0 <= m ->
  exists r, curve_swap (LinearPrice c) n ss a BtoA f = Val r /\ source_amount_swapped r = n /\
    ONE * ONE * cost_den c * (a - destination_amount_swapped r - 1) <
    cost2 c (x - m * ONE) + price_den c * ONE.
Proof. exact sale_pays. Qed.
Print Assumptions C78_sale_pays_partial.

(** Slope 1/10^9, price 50, reserve 10^9: selling 1000 of the 19.996 million tokens is
    guaranteed the value of 970 of them (48500 units); it pays 49299.  Selling 10 fails. *)
Example C78_case :
  let c := mk_linear 1 1000000000 50 1 in
  let a := 1000000000 in let x := 19996002 * ONE in
  linear_validate c = Ok tt /\
  b_value_with_amt_a_locked c (a * ONE) true = Val 19996016000000000000000000 /\
  ONE * ONE * cost_den c * a <= cost2 c x /\
  price_num_at c x <= (2 ^ 31 - 1) * (slope_num c * price_den c * (1000 - 1 - 970) * ONE
                                       - 2 * slope_den c * price_den c) /\
  cost2 c (x - 970 * ONE) + price_den c * ONE <= ONE * ONE * cost_den c * (a - 1) /\
  (cost2 c (x - 970 * ONE) + price_den c * ONE) / (ONE * ONE * cost_den c) = a - 48500 /\
  curve_swap (LinearPrice c) 1000 7 a BtoA no_fees = Val (mk_swap_result 1007 (a - 49299) 1000 49299 0 0) /\
  curve_swap (LinearPrice c) 10 7 a BtoA no_fees = Non /\
  curve_swap (LinearPrice c) 20000000 7 a BtoA no_fees = Val (mk_swap_result 19996023 0 19996016 a 0 0).
Proof. vm_compute. repeat split; congruence. Qed.

(** C79, refuted: no offer gets any of ten tokens priced at one ten-thousandth, because the
    charge for all of them rounds to nothing. *)
Theorem C79_can_buy_refuted : exists c dest,
  linear_wf c /\ linear_validate c = Ok tt /\ is_u64 dest /\ 0 < dest /\
  forall s, is_u64 s -> curve_swap (LinearPrice c) s 0 dest AtoB no_fees = Non.
Proof. exact cannot_buy. Qed.
Print Assumptions C79_can_buy_refuted.

(** C79.  An offer that covers the exact cost of all remaining tokens gets them, if they
    cost more than half a unit. *)
Theorem C79_buy_all_partial : forall c f s a dest b0, linear_wf c -> linear_validate c = Ok tt -> feeless f ->
  is_u64 s -> is_u64 a -> is_u64 dest -> 0 < dest ->
  b_value_with_amt_a_locked c (a * ONE) true = Val b0 ->
  let den := cost_den c * ONE * ONE in
  let total := cost2 c (b0 + dest * ONE) in
  den * (2 * a + 1) + 4 * cost_den c * ONE <= 2 * total ->
  2 * total + price_den c * ONE < den * (2 * (a + s) + 1) ->
  exists r, curve_swap (LinearPrice c) s a dest AtoB f = Val r /\ destination_amount_swapped r = dest.
Proof. exact buy_all. Qed.
Print Assumptions C79_buy_all_partial.

(** C79.  An offer that falls short of that by 2 * 10^-18 units goes through if it moves the
    estimated position by at least one token; it then never gets more than the pool holds. *)
Theorem C79_buy_some_partial : forall c f s a dest b0 b1,
  linear_wf c -> linear_validate c = Ok tt -> feeless f ->
  is_u64 s -> is_u64 a -> is_u64 dest -> 0 < s ->
  b_value_with_amt_a_locked c (a * ONE) true = Val b0 ->
  b_value_with_amt_a_locked c ((a + s) * ONE) false = Val b1 ->
  cost_den c * ONE * ONE * (2 * (a + s) + 1) + 4 * cost_den c * ONE <= 2 * cost2 c (b0 + dest * ONE) ->
  b0 + ONE <= b1 ->
  exists r, curve_swap (LinearPrice c) s a dest AtoB f = Val r /\
    source_amount_swapped r = s /\ destination_amount_swapped r = (b1 - b0) / ONE.
Proof. exact buy_part. Qed.
Print Assumptions C79_buy_some_partial.

(** C79.  Whether all or some: an offer that moves the estimated position by a token goes
    through, if what remains costs more than half a unit... *)
Theorem C79_buy_any_partial : forall c f s a dest b0 b1,
  linear_wf c -> linear_validate c = Ok tt -> feeless f ->
  is_u64 s -> is_u64 a -> is_u64 dest -> 0 < s -> 0 < dest ->
  b_value_with_amt_a_locked c (a * ONE) true = Val b0 ->
  b_value_with_amt_a_locked c ((a + s) * ONE) false = Val b1 ->
  cost_den c * ONE * ONE * (2 * a + 1) + 4 * cost_den c * ONE <= 2 * cost2 c (b0 + dest * ONE) ->
  b0 + ONE <= b1 ->
  exists r, curve_swap (LinearPrice c) s a dest AtoB f = Val r.
Proof. exact buy_any. Qed.
Print Assumptions C79_buy_any_partial.

(** ... and only such offers do, and those that cover the cost of all remaining tokens up
    to 2 * 10^-18 units. *)
Theorem C79_buys_only_partial : forall c f s a dest b0 b1 r,
  linear_wf c -> feeless f -> is_u64 s -> is_u64 a -> is_u64 dest ->
  b_value_with_amt_a_locked c (a * ONE) true = Val b0 ->
  b_value_with_amt_a_locked c ((a + s) * ONE) false = Val b1 ->
  curve_swap (LinearPrice c) s a dest AtoB f = Val r ->
  let den := cost_den c * ONE * ONE in
  let total := cost2 c (b0 + dest * ONE) in
  (b0 + ONE <= b1 /\ destination_amount_swapped r = (b1 - b0) / ONE) \/
  (destination_amount_swapped r = dest /\
   den * (2 * a + 1) <= 2 * total + price_den c * ONE /\
   2 * total < den * (2 * (a + s) + 1) + 4 * cost_den c * ONE).
Proof. exact buys_only. Qed.
Print Assumptions C79_buys_only_partial.

(** C79.  So an offer gets [n] tokens, or all there are, if it pays for [n] tokens and the inexactness of the
    square root from a position [x] that is worth the reserve, and if the remaining tokens would cost two
    units at the start of the curve; except for the rare amounts at which every swap aborts (C121). *)
Theorem C79_offer_partial : forall c f X g s a dest x n, linear_wf c -> linear_validate c = Ok tt -> feeless f ->
  blur c X g -> is_u64 s -> is_u64 a -> is_u64 dest -> is_u64 n -> ~ blocked c a -> 0 < n -> 2 * cost_den c <= cost_num c dest ->
  0 <= x -> x + n * ONE + g <= X -> cost2_den c * a <= cost2 c x -> cost2 c (x + n * ONE + g) <= cost2_den c * (a + s) ->
  exists r, curve_swap (LinearPrice c) s a dest AtoB f = Val r /\
    (destination_amount_swapped r = dest \/ n <= destination_amount_swapped r).
Proof. exact offer_accepted. Qed.
Print Assumptions C79_offer_partial.

(** The same on the ledger: such a purchase with [n] tokens as the limit goes through. *)
Theorem C79_buyer_partial : forall e signers w pool authority s c user source dest rest m x n y X g,
  env_ok e -> reachable e w -> signers_ok e signers ->
  pool_at w pool s -> st_curve s = LinearPrice c -> find_pda e pool = Some (authority, st_bump_seed s) ->
  is_u64 m -> In user signers -> single_signer w user -> single_signer w authority ->
  thawed w (st_token_a s) -> thawed w (st_token_b s) -> wallet w source user (st_token_a_mint s) x ->
  accepts w dest (st_token_b_mint s) (balance w (st_token_b s)) -> dest <> st_token_b s ->
  m <= x -> balance w (st_token_a s) + m <= u64_max ->
  blur c X g -> ~ blocked c (balance w (st_token_a s)) -> is_u64 n -> 0 < n <= balance w (st_token_b s) ->
  2 * cost_den c <= cost_num c (balance w (st_token_b s)) -> 0 <= y -> y + n * ONE + g <= X ->
  cost2_den c * balance w (st_token_a s) <= cost2 c y ->
  cost2 c (y + n * ONE + g) <= cost2_den c * (balance w (st_token_a s) + m) ->
  exists w', exec e signers w (Swap (pool :: authority :: user :: source :: st_token_a s :: st_token_b s :: dest
    :: st_pool_mint s :: st_pool_fee_account s :: TOKEN_PROGRAM_ID :: rest) m n) = Ok w'.
Proof. exact buyer_buys. Qed.
Print Assumptions C79_buyer_partial.

(** The conditions for ten tokens and 622 units, on the curve of the example ledger with 1000 units in the
    vault; 560 units get nine. *)
Example C79_offer_case : let c := mk_linear 1 2 50 1 in let g := 2 * 10 ^ 11 in let x := 184 * 10 ^ 17 in
  blur c (100 * ONE) g /\ 2 * cost_den c <= cost_num c 4982 /\ x + 10 * ONE + g <= 100 * ONE /\
  cost2_den c * 1000 <= cost2 c x /\ cost2 c (x + 10 * ONE + g) <= cost2_den c * (1000 + 622) /\
  curve_swap (LinearPrice c) 622 1000 4982 AtoB no_fees = Val (mk_swap_result 1622 4972 622 10 0 0) /\
  curve_swap (LinearPrice c) 560 1000 4982 AtoB no_fees = Val (mk_swap_result 1560 4973 560 9 0 0).
Proof. vm_compute. intuition congruence. Qed.

Example C79_case :
  let c := mk_linear 1 10 1 1 in
  b_value_with_amt_a_locked c (50 * ONE) true = Val 23166247910000000000 /\
  b_value_with_amt_a_locked c (150 * ONE) false = Val 45677643620000000000 /\
  cost_den c * ONE * ONE * (2 * (50 + 100) + 1) + 4 * cost_den c * ONE <= 2 * cost2 c (23166247910000000000 + 1000 * ONE) /\
  curve_swap (LinearPrice c) 100 50 1000 AtoB no_fees = Val (mk_swap_result 150 978 100 22 0 0) /\
  curve_swap (LinearPrice c) 100 50 20 AtoB no_fees = Val (mk_swap_result 136 0 86 20 0 0).
Proof. vm_compute. repeat split; congruence. Qed.
