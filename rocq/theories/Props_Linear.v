(** The linear price curve: C03 - C13, C49.

    [cost_num c b / cost_den c] is the exact collateral for the first [b] tokens,
    [cost2 c x / (cost_den c * ONE * ONE)] the same for [x] units of 10^-18 tokens,
    [b_value_with_amt_a_locked c (a * ONE) true] the position the program computes
    for a pool that holds [a] collateral.  "feeless" fee schedules are the ones
    linear pools have (C20). *)
From Verif Require Import Ints DfsPrecise Fees LinearCurve SwapCurve Spec LinearProps LinearRound
  LinearHistory LinearBacked CurveFacts.

(** A curve used in the examples: price 1 + b/10. *)
Definition tenth : linear_curve := mk_linear 1 10 1 1.

(** C03.  Accepted exactly when meaningful; every other parameter choice is a clean InvalidCurve. *)
Theorem C03_validation : forall c,
  linear_wf c ->
  (linear_validate c = Ok tt <->
     slope_num c <> 0 /\ slope_den c <> 0 /\ price_den c <> 0 /\
     slope_den c <= slope_num c * 10 ^ 18) /\
  (linear_validate c <> Ok tt -> linear_validate c = Err (ESwap InvalidCurve)).
Proof. exact linear_validate_iff. Qed.
Print Assumptions C03_validation.

Example C03_case : linear_validate tenth = Ok tt /\
  linear_validate (mk_linear 1 1000000000000000001 1 1) = Err (ESwap InvalidCurve) /\
  linear_validate (mk_linear 1 1000000000000000000 0 1) = Ok tt.
Proof. vm_compute. repeat split; congruence. Qed.

(** C04.  Two purchases in a row give at most what one purchase of the sum gives. *)
Theorem C04_split_purchase : forall c f a dest s1 s2 r1 r2 r,
  linear_wf c -> feeless f -> is_u64 a -> is_u64 dest -> is_u64 s1 -> is_u64 s2 -> is_u64 (s1 + s2) ->
  is_u64 (a + s1) ->
  curve_swap (LinearPrice c) s1 a dest AtoB f = Val r1 ->
  curve_swap (LinearPrice c) s2 (new_swap_source_amount r1) (new_swap_destination_amount r1) AtoB f
    = Val r2 ->
  0 < new_swap_destination_amount r2 ->
  curve_swap (LinearPrice c) (s1 + s2) a dest AtoB f = Val r ->
  destination_amount_swapped r1 + destination_amount_swapped r2 <= destination_amount_swapped r.
Proof. exact split_purchase. Qed.
Print Assumptions C04_split_purchase.

Example C04_case :
  curve_swap (LinearPrice tenth) 60 50 1000 AtoB no_fees = Val (mk_swap_result 110 986 60 14 0 0) /\
  curve_swap (LinearPrice tenth) 40 110 986 AtoB no_fees = Val (mk_swap_result 150 979 40 7 0 0) /\
  curve_swap (LinearPrice tenth) 100 50 1000 AtoB no_fees = Val (mk_swap_result 150 978 100 22 0 0).
Proof. vm_compute. repeat split; congruence. Qed.

(** C05.  Offering more collateral never yields fewer tokens (nor a lower charge). *)
Theorem C05_purchase_monotone : forall c f a dest s s' r r',
  linear_wf c -> feeless f -> is_u64 a -> is_u64 dest -> is_u64 s -> is_u64 s' -> s <= s' ->
  curve_swap (LinearPrice c) s a dest AtoB f = Val r ->
  curve_swap (LinearPrice c) s' a dest AtoB f = Val r' ->
  destination_amount_swapped r <= destination_amount_swapped r' /\
  source_amount_swapped r <= source_amount_swapped r'.
Proof. exact buy_mono. Qed.
Print Assumptions C05_purchase_monotone.

(** C05.  Offering more tokens never yields less collateral. *)
Theorem C05_sale_monotone : forall c f a ss n n' r r',
  linear_wf c -> feeless f -> is_u64 a -> is_u64 ss -> is_u64 n -> is_u64 n' -> n <= n' ->
  curve_swap (LinearPrice c) n ss a BtoA f = Val r ->
  curve_swap (LinearPrice c) n' ss a BtoA f = Val r' ->
  destination_amount_swapped r <= destination_amount_swapped r'.
Proof. exact sell_mono. Qed.
Print Assumptions C05_sale_monotone.

Example C05_case :
  curve_swap (LinearPrice tenth) 10 1000 150 BtoA no_fees = Val (mk_swap_result 1010 101 10 49 0 0) /\
  curve_swap (LinearPrice tenth) 13 1000 150 BtoA no_fees = Val (mk_swap_result 1013 88 13 62 0 0).
Proof. vm_compute. repeat split; congruence. Qed.

(** C06, refuted: with a slope close to 10^-18 the estimate of the position is so coarse
    that buying 9621268 tokens for 3 and selling them back pays 5. *)
Theorem C06_round_trip_refuted : exists c s a dest r1 r2,
  linear_wf c /\ linear_validate c = Ok tt /\
  is_u64 a /\ is_u64 s /\ is_u64 dest /\ is_u64 (new_swap_source_amount r1) /\
  curve_swap (LinearPrice c) s a dest AtoB no_fees = Val r1 /\
  curve_swap (LinearPrice c) (destination_amount_swapped r1) (new_swap_destination_amount r1)
    (new_swap_source_amount r1) BtoA no_fees = Val r2 /\
  source_amount_swapped r1 < destination_amount_swapped r2.
Proof. exact round_trip_profit. Qed.
Print Assumptions C06_round_trip_refuted.

(** C06 for slopes of at least 10^-17 and at most 10^14, and starting prices of at most 10^17:
    no round trip, through a normal or a final purchase, is profitable. *)
Theorem C06_round_trip_partial : forall c f s a dest r1 r2,
  linear_wf c -> feeless f -> 10 * slope_den c <= slope_num c * ONE -> moderate c ->
  is_u64 a -> is_u64 s -> is_u64 dest -> is_u64 (new_swap_source_amount r1) ->
  curve_swap (LinearPrice c) s a dest AtoB f = Val r1 ->
  curve_swap (LinearPrice c) (destination_amount_swapped r1) (new_swap_destination_amount r1)
    (new_swap_source_amount r1) BtoA f = Val r2 ->
  destination_amount_swapped r2 <= source_amount_swapped r1.
Proof. exact round_trip. Qed.
Print Assumptions C06_round_trip_partial.

Example C06_case : 10 * slope_den tenth <= slope_num tenth * ONE /\ moderate tenth /\ feeless no_fees /\
  curve_swap (LinearPrice tenth) 100 50 1000 AtoB no_fees = Val (mk_swap_result 150 978 100 22 0 0) /\
  curve_swap (LinearPrice tenth) 22 978 150 BtoA no_fees = Val (mk_swap_result 1000 53 22 97 0 0).
Proof. vm_compute. repeat split; congruence. Qed.

(** C07, refuted: a final purchase is rounded to the nearest unit of collateral, so it can be
    up to half a unit too cheap.  If a token costs less than that, tokens stay in
    circulation for free: here 494 tokens are out and the pool is empty. *)
Theorem C07_backing_refuted : exists c D ops,
  linear_wf c /\ linear_validate c = Ok tt /\ decimal c /\ is_u64 D /\
  price_num_at c (D * ONE) <= 10 ^ 17 * (slope_den c * price_den c * ONE) /\ Forall no_topup ops /\
  let st := lrun c no_fees (mk_lpool 0 D 0) ops in
  cost_den c * held st < cost_num c (sold st - 1).
Proof. exact sell_out_short. Qed.
Print Assumptions C07_backing_refuted.

(** C07 without final purchases, for parameters with an exact decimal image: the collateral
    is always at least the area under the curve, with no loss at all, however long
    the history.  (No purchase empties the pool; donations and new tokens are allowed.) *)
Theorem C07_backing_exact_partial : forall c f D ops,
  linear_wf c -> linear_validate c = Ok tt -> decimal c -> feeless f -> is_u64 D ->
  (forall pre s post, ops = pre ++ Buy s :: post ->
     left (lrun c f (mk_lpool 0 D 0) (pre ++ [Buy s])) = 0 ->
     left (lrun c f (mk_lpool 0 D 0) pre) <= 0) ->
  let st := lrun c f (mk_lpool 0 D 0) ops in
  cost_num c (Z.max 0 (sold st)) <= cost_den c * held st.
Proof. exact history_backed_exact. Qed.
Print Assumptions C07_backing_exact_partial.

(** C07 for every history on such parameters, final purchases included, if no price exceeds
    10^17: never more than one single unit of collateral is missing. *)
Theorem C07_backing_partial : forall c f D ops,
  linear_wf c -> linear_validate c = Ok tt -> decimal c -> feeless f -> is_u64 D ->
  price_num_at c (D * ONE) <= 10 ^ 17 * (slope_den c * price_den c * ONE) ->
  (forall x, ~ In (TopUp x) ops) ->
  let st := lrun c f (mk_lpool 0 D 0) ops in
  cost_num c (Z.max 0 (sold st)) <= cost_den c * (held st + 1).
Proof. exact history_backed. Qed.
Print Assumptions C07_backing_partial.

Example C07_case : decimal tenth /\
  lrun tenth no_fees (mk_lpool 0 1000 0) [Buy 150; Sell 10; GiveA 3; Buy 100; TopUp 50; GiveB 2; Sell 20]
    = mk_lpool 97 1020 30 /\ cost_num tenth 30 <= cost_den tenth * 97 /\
  lrun tenth no_fees (mk_lpool 0 10 0) [Buy 150; Sell 10; GiveA 3; Buy 100; GiveB 2; Sell 20; Buy 7]
    = mk_lpool 7 10 0.
Proof.
  split; [split; [exists 50000000000000000 | exists 1000000000]; reflexivity |].
  vm_compute. repeat split; congruence.
Qed.

(** C08.  Let p0 be an upper bound of the exact price before and p1 a lower bound of the exact
    price after the purchase (both times slope_den * price_den * 10^18).  The tokens
    delivered are at least (p1 - p0) / slope up to a relative error of 2^-31 of the
    prices and one token. *)
Theorem C08_purchase_lower : forall c f s a dest r p0 p1,
  linear_wf c -> feeless f -> is_u64 a -> is_u64 s -> is_u64 dest ->
  curve_swap (LinearPrice c) s a dest AtoB f = Val r -> destination_amount_swapped r < dest ->
  0 <= p0 -> 0 <= p1 ->
  ONE * ONE * slope_den c * exact_disc c a <= p0 * p0 ->
  p1 * p1 <= ONE * ONE * slope_den c * exact_disc c (a + s) ->
  2 ^ 31 * (2 ^ 31 - 1) * (p1 - slack c) - 2 ^ 31 * (2 ^ 31 + 1) * p0 <
  (2 ^ 62 - 1) * (slope_num c * price_den c * (destination_amount_swapped r + 1) * ONE
                  + 3 * slope_den c * price_den c).
Proof. exact purchase_lower. Qed.
Print Assumptions C08_purchase_lower.

(** C08.  And they are at most the exact amount plus a few units of 10^-9 in the price. *)
Theorem C08_purchase_upper : forall c f s a dest r p0 p1,
  linear_wf c -> feeless f -> is_u64 a -> is_u64 s -> is_u64 dest ->
  curve_swap (LinearPrice c) s a dest AtoB f = Val r -> destination_amount_swapped r < dest ->
  0 <= p0 -> 0 <= p1 ->
  p0 * p0 <= ONE * ONE * slope_den c * exact_disc c a ->
  ONE * ONE * slope_den c * exact_disc c (a + s) <= p1 * p1 ->
  slope_num c * price_den c * (destination_amount_swapped r * ONE - 1) <=
  p1 - p0 + slack c + slope_den c * price_den c.
Proof. exact purchase_upper. Qed.
Print Assumptions C08_purchase_upper.

Example C08_case :
  curve_swap (LinearPrice tenth) 100 50 1000 AtoB no_fees = Val (mk_swap_result 150 978 100 22 0 0) /\
  22 < 1000 /\
  ONE * ONE * slope_den tenth * exact_disc tenth 50 <= 33166247903600000000 * 33166247903600000000 /\
  55677643628300000000 * 55677643628300000000 <= ONE * ONE * slope_den tenth * exact_disc tenth 150.
Proof. vm_compute. repeat split; congruence. Qed.

(** C09, refuted: the area is computed with a truncation, so for fine-grained parameters the
    pool can keep one unit less than the area. *)
Theorem C09_sale_leaves_refuted : exists c n ss a b0 r e,
  linear_wf c /\ linear_validate c = Ok tt /\
  curve_swap (LinearPrice c) n ss a BtoA no_fees = Val r /\
  b_value_with_amt_a_locked c (a * ONE) true = Val b0 /\ n * ONE <= b0 /\
  (e - 1) * ONE < b0 - n * ONE <= e * ONE /\
  new_swap_destination_amount r * cost_den c < cost_num c e.
Proof. exact sale_leaves_less. Qed.
Print Assumptions C09_sale_leaves_refuted.

(** C09 up to 2 * 10^-18 units: [e] is the whole-token position reached; the pool keeps at least
    the area minus 2 * 10^-18, and one unit less would be below the area. *)
Theorem C09_sale_leaves_partial : forall c f n ss a b0 r,
  linear_wf c -> feeless f -> is_u64 a -> is_u64 n -> is_u64 ss ->
  curve_swap (LinearPrice c) n ss a BtoA f = Val r ->
  b_value_with_amt_a_locked c (a * ONE) true = Val b0 -> n * ONE <= b0 ->
  exists e, (e - 1) * ONE < b0 - n * ONE <= e * ONE /\
    source_amount_swapped r = n /\
    new_swap_destination_amount r + destination_amount_swapped r = a /\
    cost_num c e * ONE < cost_den c * (new_swap_destination_amount r * ONE + 2) /\
    (new_swap_destination_amount r - 1) * cost_den c < cost_num c e.
Proof. exact sale_leaves. Qed.
Print Assumptions C09_sale_leaves_partial.

(** C09 exactly, for denominators of at most 10^18/4 together. *)
Theorem C09_sale_exact_partial : forall c f n ss a b0 r,
  linear_wf c -> feeless f -> is_u64 a -> is_u64 n -> is_u64 ss -> 2 * cost_den c <= ONE ->
  curve_swap (LinearPrice c) n ss a BtoA f = Val r ->
  b_value_with_amt_a_locked c (a * ONE) true = Val b0 -> n * ONE <= b0 ->
  exists e, (e - 1) * ONE < b0 - n * ONE <= e * ONE /\
    (new_swap_destination_amount r - 1) * cost_den c < cost_num c e <=
    new_swap_destination_amount r * cost_den c.
Proof. exact sale_leaves_exact. Qed.
Print Assumptions C09_sale_exact_partial.

(** C09 exactly, for parameters with an exact decimal image. *)
Theorem C09_sale_decimal_partial : forall c f n ss a b0 r,
  linear_wf c -> feeless f -> decimal c -> is_u64 a -> is_u64 n -> is_u64 ss ->
  curve_swap (LinearPrice c) n ss a BtoA f = Val r ->
  b_value_with_amt_a_locked c (a * ONE) true = Val b0 -> n * ONE <= b0 ->
  exists e, (e - 1) * ONE < b0 - n * ONE <= e * ONE /\
    (new_swap_destination_amount r - 1) * cost_den c < cost_num c e <=
    new_swap_destination_amount r * cost_den c.
Proof. exact sale_leaves_decimal. Qed.
Print Assumptions C09_sale_decimal_partial.

Example C09_case : 2 * cost_den tenth <= ONE /\
  b_value_with_amt_a_locked tenth (150 * ONE) true = Val 45677643640000000000 /\
  curve_swap (LinearPrice tenth) 10 1000 150 BtoA no_fees = Val (mk_swap_result 1010 101 10 49 0 0) /\
  cost_num tenth 36 = 2016 /\ cost_den tenth = 20.
Proof. vm_compute. repeat split; congruence. Qed.

(** C10.  Over-sized sales take the position rounded to a whole token and pay everything. *)
Theorem C10_oversized_sale : forall c f n ss a b0 r,
  linear_wf c -> feeless f -> is_u64 a -> is_u64 n -> is_u64 ss ->
  curve_swap (LinearPrice c) n ss a BtoA f = Val r ->
  b_value_with_amt_a_locked c (a * ONE) true = Val b0 -> b0 < n * ONE ->
  destination_amount_swapped r = a /\ new_swap_destination_amount r = 0 /\
  source_amount_swapped r <= n /\
  2 * source_amount_swapped r * ONE - ONE <= 2 * b0 < 2 * source_amount_swapped r * ONE + ONE.
Proof. exact oversell. Qed.
Print Assumptions C10_oversized_sale.

Example C10_case :
  b_value_with_amt_a_locked tenth (150 * ONE) true = Val 45677643640000000000 /\
  curve_swap (LinearPrice tenth) 46 1000 150 BtoA no_fees = Val (mk_swap_result 1046 0 46 150 0 0) /\
  curve_swap (LinearPrice tenth) 5000 1000 150 BtoA no_fees = Val (mk_swap_result 1046 0 46 150 0 0).
Proof. vm_compute. repeat split; congruence. Qed.

(** C11, refuted: offering one token too many changes the price of the tokens actually taken. *)
Theorem C11_same_price_refuted : exists c n n' ss a r r',
  linear_wf c /\ linear_validate c = Ok tt /\ is_u64 n /\ is_u64 n' /\ is_u64 ss /\ is_u64 a /\
  curve_swap (LinearPrice c) n ss a BtoA no_fees = Val r /\
  curve_swap (LinearPrice c) n' ss a BtoA no_fees = Val r' /\
  source_amount_swapped r = source_amount_swapped r' /\
  destination_amount_swapped r < destination_amount_swapped r'.
Proof. exact oversell_price_differs. Qed.
Print Assumptions C11_same_price_refuted.

(** C11 for offers that both fit, or both exceed, the position of the pool. *)
Theorem C11_same_price_partial : forall c f ss ss' a n n' r r' b0,
  linear_wf c -> feeless f -> is_u64 a -> is_u64 ss -> is_u64 ss' -> is_u64 n -> is_u64 n' ->
  curve_swap (LinearPrice c) n ss a BtoA f = Val r ->
  curve_swap (LinearPrice c) n' ss' a BtoA f = Val r' ->
  b_value_with_amt_a_locked c (a * ONE) true = Val b0 ->
  (n * ONE <= b0 <-> n' * ONE <= b0) ->
  source_amount_swapped r = source_amount_swapped r' ->
  destination_amount_swapped r = destination_amount_swapped r'.
Proof. exact same_offer_kind_same_price. Qed.
Print Assumptions C11_same_price_partial.

Example C11_case :
  b_value_with_amt_a_locked tenth (150 * ONE) true = Val 45677643640000000000 /\
  curve_swap (LinearPrice tenth) 46 1000 150 BtoA no_fees = Val (mk_swap_result 1046 0 46 150 0 0) /\
  curve_swap (LinearPrice tenth) 47 2000 150 BtoA no_fees = Val (mk_swap_result 2046 0 46 150 0 0).
Proof. vm_compute. repeat split; congruence. Qed.

(** C12.  A purchase charges the whole offer, or delivers everything that is left for the area
    under the curve from the start to the end, minus what is held, to the nearest unit. *)
Theorem C12_last_purchase : forall c f s a dest r b0,
  linear_wf c -> feeless f -> is_u64 a -> is_u64 s -> is_u64 dest ->
  curve_swap (LinearPrice c) s a dest AtoB f = Val r ->
  b_value_with_amt_a_locked c (a * ONE) true = Val b0 ->
  let den := cost_den c * ONE * ONE in
  let total := cost2 c (b0 + dest * ONE) in
  let cost := source_amount_swapped r in
  cost = s \/
  (destination_amount_swapped r = dest /\ cost < s /\
   2 * total < den * (2 * (a + cost) + 1) + 4 * cost_den c * ONE /\
   den * (2 * (a + cost) - 1) <= 2 * total + price_den c * ONE).
Proof. exact last_purchase. Qed.
Print Assumptions C12_last_purchase.

(** C12.  If the offer covers that area the buyer gets all remaining tokens. *)
Theorem C12_covered_offer_sells_out : forall c f s a dest r b0,
  linear_wf c -> feeless f -> is_u64 a -> is_u64 s -> is_u64 dest ->
  curve_swap (LinearPrice c) s a dest AtoB f = Val r ->
  b_value_with_amt_a_locked c (a * ONE) true = Val b0 ->
  let den := cost_den c * ONE * ONE in
  let total := cost2 c (b0 + dest * ONE) in
  den * a + cost_den c * ONE <= total ->
  2 * total + price_den c * ONE < den * (2 * (a + s) + 1) ->
  destination_amount_swapped r = dest.
Proof. exact covered_sells_out. Qed.
Print Assumptions C12_covered_offer_sells_out.

Example C12_case :
  b_value_with_amt_a_locked tenth (50 * ONE) true = Val 23166247910000000000 /\
  curve_swap (LinearPrice tenth) 100 50 5 AtoB no_fees = Val (mk_swap_result 68 0 18 5 0 0) /\
  cost_den tenth * ONE * ONE * 50 + cost_den tenth * ONE <= cost2 tenth (23166247910000000000 + 5 * ONE) /\
  2 * cost2 tenth (23166247910000000000 + 5 * ONE) + price_den tenth * ONE
    < cost_den tenth * ONE * ONE * (2 * (50 + 100) + 1).
Proof. vm_compute. repeat split; congruence. Qed.

(** C13, refuted: there are valid curves and balances for which every swap aborts. *)
Theorem C13_no_abort_refuted : exists c s ss sd d,
  linear_wf c /\ linear_validate c = Ok tt /\ is_u64 s /\ is_u64 ss /\ is_u64 sd /\
  linear_swap c s ss sd d = Panic.
Proof. exact linear_swap_aborts. Qed.
Print Assumptions C13_no_abort_refuted.

(** C13, exactly when: the discriminant (for the collateral held) starts with 64 one bits at an
    even exponent and has a non-zero rest. *)
Theorem C13_abort_iff_partial : forall c s ss sd d,
  linear_wf c -> linear_validate c = Ok tt -> is_u64 s -> is_u64 ss -> is_u64 sd ->
  (linear_swap c s ss sd d = Panic <->
   exists k, 1 <= k /\ (2 ^ 64 - 1) * 4 ^ k < disc c (side_a d ss sd) < 2 ^ 64 * 4 ^ k).
Proof. exact linear_panic_iff. Qed.
Print Assumptions C13_abort_iff_partial.

Example C13_case : linear_validate (mk_linear 1 1 0 1) = Ok tt /\
  linear_swap (mk_linear 1 1 0 1) 1 10633823966279326983 1000 AtoB = Panic /\
  linear_swap (mk_linear 1 1 0 1) 50000000000 10633823966279326982 1000 AtoB = Val (50000000000, 10).
Proof. vm_compute. repeat split; congruence. Qed.

(** C49, refuted: the reported value keeps only the leading 32 bits, so it drops from 4 to 5 tokens. *)
Theorem C49_value_monotone_refuted : exists c a b b' v v',
  linear_wf c /\ linear_validate c = Ok tt /\ is_u64 a /\ is_u64 b /\ is_u64 b' /\ b < b' /\
  linear_normalized_value c a b = Val v /\ linear_normalized_value c a b' = Val v' /\ v' < v.
Proof. exact value_decreases. Qed.
Print Assumptions C49_value_monotone_refuted.

(** C49 within one binary order of magnitude of the untruncated value. *)
Theorem C49_value_monotone_partial : forall c a b a' b' v v',
  linear_wf c -> linear_validate c = Ok tt -> is_u64 a -> is_u64 b -> is_u64 a' -> is_u64 b' ->
  a <= a' -> b <= b' ->
  linear_normalized_value c a b = Val v -> linear_normalized_value c a' b' = Val v' ->
  exists t t', v = t / 2 ^ Z.max 0 (Z.log2 t - 31) /\ v' = t' / 2 ^ Z.max 0 (Z.log2 t' - 31) /\
    0 <= t <= t' /\ (Z.log2 t = Z.log2 t' -> v <= v').
Proof. exact value_partial. Qed.
Print Assumptions C49_value_monotone_partial.

Example C49_case : linear_normalized_value tenth 150 20 = Val 3822942009 /\
  linear_normalized_value tenth 160 20 = Val 3925852155.
Proof. vm_compute. repeat split; congruence. Qed.
