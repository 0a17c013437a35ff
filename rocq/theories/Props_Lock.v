(** What stays behind in a linear pool (C110), and what a purchase sold straight back loses (C111). *)
From Verif Require Import Ints Tactics DfsPrecise Fees LinearCurve SwapCurve Codec Token Processor Api History
  Spec LedgerSpec TraceSpec RoundSpec LinearProps LinearRound LinearHistory LinearBacked LedgerExamples HistoryExamples
  DriftSpec SandwichFacts CoverWitness LockSpec LockFacts LockLedger.

(** C110, that nothing stays behind when all tokens are back: false.  A user buys one token
    for 52 and sells it for 1, buys three for 206 and sells them for 104: the pool has all its
    tokens and 153 units of collateral that belong to nobody.  Both trades round to the
    disadvantage of the user, each by up to a token. *)
Theorem C110_locked_refuted : exists e w l w' k s c user money tokens,
  env_ok e /\ reachable e w /\ trace e w l w' /\ pool_at w k s /\ st_curve s = LinearPrice c /\ decimal c /\
  Forall (fun p => swaps_on k (fst p) = true /\ exists i, fst p = Instruction [user] i) l /\
  balance w (st_token_a s) = 0 /\ balance w tokens = 0 /\
  balance w' (st_token_b s) = balance w (st_token_b s) /\ balance w' tokens = 0 /\
  balance w' (st_token_a s) = 153 /\ balance w' money = balance w money - 153.
Proof. exact locked. Qed.
Print Assumptions C110_locked_refuted.

(** C110.  It cannot be more than this, over any history of trades and gifts: each trade
    puts the collateral ahead of the tokens sold by at most one token, the blur [g] of
    the estimated position, and what one unit of collateral buys. *)
Theorem C110_history_partial : forall c f X g u D ops,
  linear_wf c -> linear_validate c = Ok tt -> feeless f -> is_u64 D -> blur c X g -> one_unit c u ->
  let st := lrun c f (mk_lpool 0 D 0) ops in let t := aheads g u ops in
  (sold st + left st) * ONE + t <= X ->
  0 <= sold st * ONE + t /\ cost2_den c * held st <= cost2 c (sold st * ONE + t).
Proof. exact full_history. Qed.
Print Assumptions C110_history_partial.

(** In whole tokens, three for each trade, when the curve starts at one or more and its
    slope is not tiny. *)
Theorem C110_whole_partial : forall c f Q D ops,
  linear_wf c -> linear_validate c = Ok tt -> feeless f -> is_u64 D -> 0 <= Q ->
  price_den c <= price_num c ->
  (price_num c * slope_den c + slope_num c * price_den c * Q) * 10 ^ 18 <=
    2 ^ 30 * price_den c * (slope_num c * 10 ^ 18 - 1414213566 * slope_den c) ->
  let st := lrun c f (mk_lpool 0 D 0) ops in let n := behinds ops in
  sold st + left st + n <= Q ->
  0 <= sold st + n /\ cost_den c * held st <= cost_num c (sold st + n).
Proof. exact full_whole. Qed.
Print Assumptions C110_whole_partial.

(** On the ledger, from any point of the life of any linear pool on, at which the collateral
    is at most what the curve costs up to [z].  What others send to the vault of collateral
    counts as well. *)
Theorem C110_trace_partial : forall e w l w' k s c X g u z, env_ok e -> reachable e w -> trace e w l w' ->
  pool_at w k s -> st_curve s = LinearPrice c -> blur c X g -> one_unit c u ->
  0 <= z -> cost2_den c * balance w (st_token_a s) <= cost2 c z ->
  let y := drawn k (st_token_b s) w l in
  let t := (ONE + g + u) * swaps k l + u * (balance w' (st_token_a s) - balance w (st_token_a s) + drawn k (st_token_a s) w l) in
  (y + balance w' (st_token_b s)) * ONE + z + t <= X ->
  0 <= z + y * ONE + t /\ cost2_den c * balance w' (st_token_a s) <= cost2 c (z + y * ONE + t).
Proof. exact full_trace. Qed.
Print Assumptions C110_trace_partial.

(** The four trades of the witness: 153 units, the bound is 208. *)
Example C110_case : let c := mk_linear 1 2 50 1 in let g := 5 * 10 ^ 12 in let u := 2 * 10 ^ 16 in let X := 5010 * 10 ^ 18 in
  blur c X g /\ one_unit c u /\
  let t := (ONE + g + u) * swaps 100 lk_trace in
  drawn 100 102 sw_w1 lk_trace = 0 /\ drawn 100 101 sw_w1 lk_trace = - 153 /\ balance lk_w5 101 = 153 /\
  5000 * ONE + t <= X /\ cost2 c t / cost2_den c = 208.
Proof. vm_compute. repeat split; try reflexivity; discriminate. Qed.

(** Buys and sales of a pool of 5000 tokens, and a gift of 10 units. *)
Example C110_history_case : let c := mk_linear 1 2 50 1 in
  let ops := [Buy 762; Sell 3; GiveA 10; Buy 1113; Sell 5] in let st := lrun c no_fees (mk_lpool 0 5000 0) ops in
  held st = 1469 /\ sold st = 24 /\ behinds ops = 22 /\ cost_num c 46 / cost_den c = 2829 /\
  (50 * 2 + 1 * 1 * 6000) * 10 ^ 18 <= 2 ^ 30 * 1 * (1 * 10 ^ 18 - 1414213566 * 2).
Proof. vm_compute. repeat split; try reflexivity; discriminate. Qed.

(** On a curve with slope 2 from price 0 the first token costs exactly one unit, and at slope 1 and
    price 0 a blur of two tokens reaches exactly this far. *)
Example C110_bounds_case : let c := mk_linear 2 1 0 1 in let c1 := mk_linear 1 1 0 1 in
  let X := 2 ^ 30 * (2 * 10 ^ 18 - 1414213566) in
  one_unit c (10 ^ 18) /\ ~ one_unit c (10 ^ 18 - 1) /\ blur c1 X (2 * 10 ^ 18) /\ ~ blur c1 (X + 1) (2 * 10 ^ 18).
Proof. vm_compute. intuition congruence. Qed.

(** C111, that a purchase sold straight back loses at most the price of a token: false.  With
    51 in the pool, three tokens cost 206 and are bought back for 104; the price of 1.98
    tokens is lost.  [z] is the position on the curve, in 10^-18 tokens. *)
Theorem C111_one_refuted : exists c s a dest r1 r2 z,
  linear_wf c /\ linear_validate c = Ok tt /\ is_u64 a /\ is_u64 s /\ is_u64 dest /\ is_u64 (new_swap_source_amount r1) /\
  curve_swap (LinearPrice c) s a dest AtoB no_fees = Val r1 /\
  curve_swap (LinearPrice c) (destination_amount_swapped r1) (new_swap_destination_amount r1)
    (new_swap_source_amount r1) BtoA no_fees = Val r2 /\
  source_amount_swapped r2 = destination_amount_swapped r1 /\
  0 <= z /\ cost2 c z <= cost2_den c * a <= cost2 c (z + 1) /\
  cost2 c (z + 198 * 10 ^ 16) < cost2_den c * (a + source_amount_swapped r1 - destination_amount_swapped r2).
Proof. exact back_two. Qed.
Print Assumptions C111_one_refuted.

(** C111.  Never more than the price of two tokens, but for the blur and a unit in each trade. *)
Theorem C111_two_partial : forall c f X g u z s a dest r1 r2,
  linear_wf c -> linear_validate c = Ok tt -> feeless f -> blur c X g -> one_unit c u ->
  is_u64 a -> is_u64 s -> is_u64 dest -> is_u64 (new_swap_source_amount r1) ->
  curve_swap (LinearPrice c) s a dest AtoB f = Val r1 ->
  curve_swap (LinearPrice c) (destination_amount_swapped r1) (new_swap_destination_amount r1)
    (new_swap_source_amount r1) BtoA f = Val r2 ->
  0 <= z -> cost2_den c * a <= cost2 c z -> dest * ONE + z + 2 * (ONE + g + u) <= X ->
  cost2_den c * (a + source_amount_swapped r1 - destination_amount_swapped r2) <= cost2 c (z + 2 * (ONE + g + u)).
Proof. exact back_loss. Qed.
Print Assumptions C111_two_partial.

(** The same trades: 102 units are lost, 104 is the bound. *)
Example C111_case : let c := mk_linear 1 2 50 1 in let g := 5 * 10 ^ 12 in let u := 2 * 10 ^ 16 in let z := 1014850393395128762 in
  curve_swap (LinearPrice c) 206 51 5000 AtoB no_fees = Val (mk_swap_result 257 4997 206 3 0 0) /\
  curve_swap (LinearPrice c) 3 4997 257 BtoA no_fees = Val (mk_swap_result 5000 153 3 104 0 0) /\
  cost2_den c * 51 <= cost2 c z /\ 5000 * ONE + z + 2 * (ONE + g + u) <= 5010 * 10 ^ 18 /\
  cost2 c (z + 2 * (ONE + g + u)) / cost2_den c = 51 + 104.
Proof. vm_compute. repeat split; try reflexivity; discriminate. Qed.
