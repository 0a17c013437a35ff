(** A second linear pool that goes on where the first one ends: C106. *)
From Verif Require Import Ints Tactics DfsPrecise Fees LinearCurve SwapCurve Spec LinearProps LinearRound LinearHistory LinearBacked
  LockSpec NextSpec NextFacts NextBlur.

(** C106.  Selling out a fresh pool and then a second one that continues its curve takes
    in what one pool with all the tokens would, up to one unit of collateral, if the
    starting prices have exact roots. *)
Theorem C106_sold_out_partial : forall c c2 f D D2 s1 s2 s r1 r2 r,
  linear_wf c -> linear_validate c = Ok tt -> linear_wf c2 -> linear_validate c2 = Ok tt -> feeless f ->
  continues c D c2 -> is_u64 D -> is_u64 D2 -> is_u64 (D + D2) -> is_u64 s1 -> is_u64 s2 -> is_u64 s ->
  b_value_with_amt_a_locked c 0 true = Val 0 -> b_value_with_amt_a_locked c2 0 true = Val 0 ->
  curve_swap (LinearPrice c) s1 0 D AtoB f = Val r1 -> source_amount_swapped r1 < s1 ->
  curve_swap (LinearPrice c2) s2 0 D2 AtoB f = Val r2 -> source_amount_swapped r2 < s2 ->
  curve_swap (LinearPrice c) s 0 (D + D2) AtoB f = Val r -> source_amount_swapped r < s ->
  destination_amount_swapped r1 + destination_amount_swapped r2 = destination_amount_swapped r /\
  -1 <= source_amount_swapped r1 + source_amount_swapped r2 - source_amount_swapped r <= 1.
Proof. exact next_sold_out. Qed.
Print Assumptions C106_sold_out_partial.

(** The exact costs agree for any number of tokens of the second pool. *)
Theorem C106_costs : forall c D c2 x, continues c D c2 ->
  cost_num c (D + x) * cost_den c2 = cost_num c D * cost_den c2 + cost_num c2 x * cost_den c.
Proof. exact next_cost. Qed.
Print Assumptions C106_costs.

(** C106: that such a second curve can always be initialized is false; the end price need
    not be a fraction of two u64 numbers. *)
Theorem C106_next_refuted : exists c D, linear_wf c /\ linear_validate c = Ok tt /\ is_u64 D /\
  forall c2, linear_wf c2 -> linear_validate c2 = Ok tt -> ~ continues c D c2.
Proof. exact no_next. Qed.
Print Assumptions C106_next_refuted.

(** It can if the fraction computed without reduction fits. *)
Theorem C106_next_partial : forall c D, linear_wf c -> linear_validate c = Ok tt -> 0 <= D ->
  price_num c * slope_den c + slope_num c * D * price_den c <= u64_max -> price_den c * slope_den c <= u64_max ->
  let c2 := mk_linear (slope_num c) (slope_den c) (price_num c * slope_den c + slope_num c * D * price_den c) (price_den c * slope_den c) in
  linear_wf c2 /\ linear_validate c2 = Ok tt /\ continues c D c2.
Proof. exact next_exists. Qed.
Print Assumptions C106_next_partial.

(** Slope 1/10, starting price 50; 1000 tokens raise it to 150. *)
Example C106_case : let c := mk_linear 1 10 50 1 in let c2 := mk_linear 2 20 150 1 in
  continues c 1000 c2 /\ b_value_with_amt_a_locked c 0 true = Val 0 /\ b_value_with_amt_a_locked c2 0 true = Val 0 /\
  curve_swap (LinearPrice c) 200000 0 1000 AtoB no_fees = Val (mk_swap_result 100000 0 100000 1000 0 0) /\
  curve_swap (LinearPrice c2) 200000 0 501 AtoB no_fees = Val (mk_swap_result 87700 0 87700 501 0 0) /\
  curve_swap (LinearPrice c) 200000 0 1501 AtoB no_fees = Val (mk_swap_result 187700 0 187700 1501 0 0) /\
  ~ continues c 999 c2.
Proof. vm_compute. intuition congruence. Qed.

(** C106: for other starting prices the amounts may differ by millions. *)
Theorem C106_sold_out_refuted : exists c c2 D D2 s1 s2 s r1 r2 r,
  linear_wf c /\ linear_validate c = Ok tt /\ linear_wf c2 /\ linear_validate c2 = Ok tt /\
  continues c D c2 /\ is_u64 D /\ is_u64 D2 /\ is_u64 (D + D2) /\ is_u64 s1 /\ is_u64 s2 /\ is_u64 s /\
  curve_swap (LinearPrice c) s1 0 D AtoB no_fees = Val r1 /\ source_amount_swapped r1 < s1 /\
  curve_swap (LinearPrice c2) s2 0 D2 AtoB no_fees = Val r2 /\ source_amount_swapped r2 < s2 /\
  curve_swap (LinearPrice c) s 0 (D + D2) AtoB no_fees = Val r /\ source_amount_swapped r < s /\
  source_amount_swapped r1 + source_amount_swapped r2 = source_amount_swapped r + 3183073.
Proof. exact next_apart. Qed.
Print Assumptions C106_sold_out_refuted.

(** C106.  For any starting prices: if the blur [g] of the second pool costs at most [m]
    units of collateral at the end of the curve, the two pools take in at most [1 + 2 * m] more and
    at most [1 + m] less than one pool with all the tokens. *)
Theorem C106_sold_out_any_partial : forall c c2 f D D2 g m s1 s2 s r1 r2 r,
  linear_wf c -> linear_validate c = Ok tt -> linear_wf c2 -> linear_validate c2 = Ok tt -> feeless f ->
  continues c D c2 -> is_u64 D -> is_u64 D2 -> is_u64 (D + D2) -> is_u64 s1 -> is_u64 s2 -> is_u64 s ->
  blur c2 0 g -> cost2 c ((D + D2) * ONE + g) <= cost2 c ((D + D2) * ONE) + m * cost2_den c ->
  curve_swap (LinearPrice c) s1 0 D AtoB f = Val r1 -> source_amount_swapped r1 < s1 ->
  curve_swap (LinearPrice c2) s2 0 D2 AtoB f = Val r2 -> source_amount_swapped r2 < s2 ->
  curve_swap (LinearPrice c) s 0 (D + D2) AtoB f = Val r -> source_amount_swapped r < s ->
  destination_amount_swapped r1 + destination_amount_swapped r2 = destination_amount_swapped r /\
  - (1 + m) <= source_amount_swapped r1 + source_amount_swapped r2 - source_amount_swapped r <= 1 + 2 * m.
Proof. exact next_near. Qed.
Print Assumptions C106_sold_out_any_partial.

(** Slope 10^-6, starting price 99999; a billion tokens raise it by 1000.  The difference of 3183073
    units stays below 1 + 2 * 9594441. *)
Example C106_any_case : let c := mk_linear 1 (10 ^ 6) 99999 1 in let c2 := mk_linear 1 (10 ^ 6) 100999 1 in
  let g := 94064062927154714600 in
  continues c (10 ^ 9) c2 /\ blur c2 0 g /\ ~ blur c2 0 (g - 1) /\
  cost2 c ((10 ^ 9 + 10 ^ 9) * ONE + g) <= cost2 c ((10 ^ 9 + 10 ^ 9) * ONE) + 9594441 * cost2_den c /\
  b_value_with_amt_a_locked c 0 true = Val 2560000000000000000 /\
  curve_swap (LinearPrice c) (2 ^ 63) 0 (10 ^ 9) AtoB no_fees = Val (mk_swap_result 100499000258557 0 100499000258557 (10 ^ 9) 0 0) /\
  curve_swap (LinearPrice c2) (2 ^ 63) 0 (10 ^ 9) AtoB no_fees = Val (mk_swap_result 101499003185633 0 101499003185633 (10 ^ 9) 0 0) /\
  curve_swap (LinearPrice c) (2 ^ 63) 0 (10 ^ 9 + 10 ^ 9) AtoB no_fees = Val (mk_swap_result 201998000261117 0 201998000261117 (10 ^ 9 + 10 ^ 9) 0 0).
Proof. vm_compute. intuition congruence. Qed.
