(** The program's own randomized tests: C92 to C96. *)
From Verif Require Import Ints StableCurve LinearCurve SwapCurve QuoteSpec RandomTests Simulation TestSpec
  TestFacts TestProduct TestLinear TestStable TestConversions TestDeposits TestSale.

(** ** C92: constant price *)

(** C92.  The tests of trades, deposits and withdrawals hold for every draw. *)
Theorem C92_swap_a_to_b : forall source ss sd p,
  drawn64 source -> drawn64 ss -> drawn64 sd -> drawn64 p ->
  holds (price_value_swap_a_to_b source ss sd p).
Proof. exact price_swap_a_to_b_holds. Qed.
Print Assumptions C92_swap_a_to_b.

Theorem C92_swap_b_to_a : forall source ss sd p,
  drawn32 source -> drawn64 ss -> drawn64 sd -> drawn32 p ->
  holds (price_value_swap_b_to_a source ss sd p).
Proof. exact price_swap_b_to_a_holds. Qed.
Print Assumptions C92_swap_b_to_a.

Theorem C92_deposit : forall n supply a b p,
  drawn 2 u64_max n -> drawn_supply supply -> drawn64 a -> drawn32 b -> drawn32 p ->
  holds (price_value_deposit n supply a b p).
Proof. exact price_deposit_holds. Qed.
Print Assumptions C92_deposit.

Theorem C92_withdraw : forall n supply a b p,
  drawn_part supply n -> drawn64 a -> drawn32 b -> drawn32 p ->
  holds (price_value_withdraw n supply a b p).
Proof. exact price_withdraw_holds. Qed.
Print Assumptions C92_withdraw.
Example C92_case :
  price_value_swap_a_to_b 1007 1000 5000 10 = Passed /\
  price_value_swap_b_to_a 1007 1000 50000 10 = Passed /\
  price_value_deposit 12345 1000000007 1001 53 10 = Rejected /\
  price_value_deposit 12345 1000000007 1000000001 53 10 = Passed /\
  price_value_withdraw 77 1003 999983 100003 7 = Passed.
Proof. repeat split; vm_compute; reflexivity. Qed.

(** C92.  The test that a one-sided deposit gives as many pool tokens as trading first
    does not hold for every draw ... *)
Theorem C92_deposit_conversion_refuted :
  (exists source ss sd supply p,
    drawn 2 u64_max source /\ drawn64 ss /\ drawn64 sd /\ drawn_supply supply /\ drawn64 p /\
    price_deposit_conversion_a_to_b source ss sd supply p = Violated) /\
  (exists source ss sd supply p,
    drawn 2 u32_max source /\ drawn64 ss /\ drawn64 sd /\ drawn_supply supply /\ drawn32 p /\
    price_deposit_conversion_b_to_a source ss sd supply p = Violated).
Proof.
  split; [exists 100000000000, 1000000000000, 1000000000000, 1000000000, 1 | exists 2, 5, 1, 1000000002, 1];
    repeat split; vm_compute; congruence.
Qed.
Print Assumptions C92_deposit_conversion_refuted.

(** ... it does when the deposit is at most half a percent of the pool's value. *)
Theorem C92_deposit_conversion_a_to_b_partial : forall source ss sd supply p,
  drawn 2 u64_max source -> drawn64 ss -> drawn64 sd -> drawn_supply supply -> drawn64 p ->
  200 * source <= ss + p * sd ->
  holds (price_deposit_conversion_a_to_b source ss sd supply p).
Proof. exact price_deposit_conversion_a_to_b_small. Qed.
Print Assumptions C92_deposit_conversion_a_to_b_partial.

Theorem C92_deposit_conversion_b_to_a_partial : forall source ss sd supply p,
  drawn 2 u32_max source -> drawn64 ss -> drawn64 sd -> drawn_supply supply -> drawn32 p ->
  200 * (p * source) <= sd + p * ss ->
  holds (price_deposit_conversion_b_to_a source ss sd supply p).
Proof. exact price_deposit_conversion_b_to_a_small. Qed.
Print Assumptions C92_deposit_conversion_b_to_a_partial.
Example C92_deposit_conversion_case :
  price_deposit_conversion_a_to_b 1001 100000 5000 1000000007 20 = Passed /\
  price_deposit_conversion_b_to_a 50 100000 5000 1000000007 20 = Passed.
Proof. split; vm_compute; reflexivity. Qed.

(** C92.  Likewise the test that a one-sided withdrawal costs as many pool tokens as
    withdrawing both and trading ... *)
Theorem C92_withdraw_conversion_refuted : exists n supply a b p,
  drawn_part supply n /\ drawn64 a /\ drawn32 b /\ drawn32 p /\
  price_withdraw_conversion n supply a b p = Violated.
Proof. exists 10, 11, 5, 6, 1. repeat split; vm_compute; congruence. Qed.
Print Assumptions C92_withdraw_conversion_refuted.

(** ... holds when 400 tokens B, at least, are withdrawn on each side. *)
Theorem C92_withdraw_conversion_partial : forall n supply a b p,
  drawn_part supply n -> drawn64 a -> drawn32 b -> drawn32 p ->
  800 * p * supply <= n * (a + p * b) ->
  holds (price_withdraw_conversion n supply a b p).
Proof. exact price_withdraw_conversion_large. Qed.
Print Assumptions C92_withdraw_conversion_partial.
Example C92_withdraw_conversion_case : price_withdraw_conversion 7013 100003 99999989 1234577 20 = Passed.
Proof. vm_compute. reflexivity. Qed.

(** ** C93: constant product *)

(** C93.  Where there is a trade its test passes ... *)
Theorem C93_swap_partial : forall source ss sd, drawn64 source -> drawn64 ss -> drawn64 sd ->
  passes_with_a_trade (value_swap ConstantProduct source ss sd)
    (swap_without_fees ConstantProduct source ss sd AtoB).
Proof. exact product_swap_test. Qed.
Print Assumptions C93_swap_partial.
Example C93_swap_case : value_swap ConstantProduct 1007 100000 5003 = Passed.
Proof. vm_compute. reflexivity. Qed.

(** ... but for some draws there is none. *)
Theorem C93_swap_refuted : exists source ss sd, drawn64 source /\ drawn64 ss /\ drawn64 sd /\
  value_swap ConstantProduct source ss sd = Broke.
Proof. exists 1, 1, 1. repeat split; vm_compute; congruence. Qed.
Print Assumptions C93_swap_refuted.

(** C93.  The test of deposits holds for every draw. *)
Theorem C93_deposit : forall n supply a b, drawn64 n -> drawn64 supply -> drawn64 a -> drawn64 b ->
  holds (value_deposit ConstantProduct n supply a b).
Proof. exact (fun n s a b => product_deposit_test ConstantProduct n s a b (or_introl eq_refl)). Qed.
Print Assumptions C93_deposit.
Example C93_deposit_case :
  value_deposit ConstantProduct 1007 100000 5003 777 = Passed /\ value_deposit ConstantProduct 1 100000 5003 777 = Rejected.
Proof. split; vm_compute; reflexivity. Qed.

(** C93.  The test of withdrawals does not; the value per pool token can fall by the
    rounding of its own computation, less than two units of 10^-12. *)
Theorem C93_withdraw_refuted : exists n supply a b, drawn_part supply n /\ drawn64 a /\ drawn64 b /\
  value_withdraw ConstantProduct n supply a b = Violated.
Proof. exists 1, 2, 4, 12. repeat split; vm_compute; congruence. Qed.
Print Assumptions C93_withdraw_refuted.

Theorem C93_withdraw_partial : forall n supply a b, drawn_part supply n -> drawn64 a -> drawn64 b ->
  let verdict := value_withdraw ConstantProduct n supply a b in
  verdict = Rejected \/
  exists v v', normalized_value ConstantProduct a b = Val v /\
    normalized_value ConstantProduct (a - n * a / supply) (b - n * b / supply) = Val v' /\
    withdrawal_value_test verdict v v' n supply.
Proof. exact product_withdraw_test. Qed.
Print Assumptions C93_withdraw_partial.
Example C93_withdraw_case :
  value_withdraw ConstantProduct 1007 100000 500003 77777 = Passed.
Proof. vm_compute; reflexivity. Qed.

(** C93.  The tests of one-sided deposits and withdrawals do not hold for every draw. *)
Theorem C93_conversions_refuted :
  (exists source ss sd supply, drawn 2 u64_max source /\ drawn64 ss /\ drawn64 sd /\ drawn_supply supply /\
    deposit_conversion ConstantProduct CONVERSION_BASIS_POINTS_GUARANTEE source ss sd supply = Violated) /\
  (exists n supply a b, drawn_part supply n /\ drawn64 a /\ drawn64 b /\
    withdraw_conversion ConstantProduct n supply a b = Violated).
Proof.
  split; [exists 3, 1, 5, 1000000002 | exists 7, 11, 4, 3]; repeat split; vm_compute; congruence.
Qed.
Print Assumptions C93_conversions_refuted.
(** Trading in the other direction after a withdrawal is not covered by the first. *)
Example C93_conversions_case :
  verdict_of (check_withdraw_token_conversion ConstantProduct 6 10 8 3 AtoB CONVERSION_BASIS_POINTS_GUARANTEE) = Passed /\
  withdraw_conversion ConstantProduct 6 10 8 3 = Violated.
Proof. split; vm_compute; reflexivity. Qed.

(** C93.  They do where the amounts are large enough: a deposit of at least 10^4 base units
    and a hundred-thousandth of the reserve, if there is a trade at all ... *)
Theorem C93_deposit_conversion_partial : forall source ss sd supply,
  drawn 2 u64_max source -> drawn64 ss -> drawn64 sd -> drawn_supply supply ->
  10 ^ 4 <= source -> ss <= 10 ^ 5 * source ->
  passes_with_a_trade (deposit_conversion ConstantProduct CONVERSION_BASIS_POINTS_GUARANTEE source ss sd supply)
    (swap_without_fees ConstantProduct (source / 2) ss sd AtoB).
Proof. exact product_deposit_conversion. Qed.
Print Assumptions C93_deposit_conversion_partial.
Example C93_deposit_conversion_case :
  deposit_conversion ConstantProduct CONVERSION_BASIS_POINTS_GUARANTEE 10007 1000000007 5003 1000000004 = Broke /\
  deposit_conversion ConstantProduct CONVERSION_BASIS_POINTS_GUARANTEE 10007 1000000007 5000003 1000000004 = Passed.
Proof. split; vm_compute; reflexivity. Qed.

(** ... and a withdrawal of at least a ten-millionth of the pool tokens, from reserves that
    are large beside the shares withdrawn and left. *)
Theorem C93_withdraw_conversion_partial : forall n supply a b, drawn_part supply n -> drawn64 a -> drawn64 b ->
  supply <= 10 ^ 7 * n ->
  500 * (supply * supply) <= n * (supply - n) * Z.min a b ->
  supply * supply <= (supply - n) * (supply - n) * Z.min a b ->
  withdraw_conversion ConstantProduct n supply a b = Passed.
Proof. exact product_withdraw_conversion. Qed.
Print Assumptions C93_withdraw_conversion_partial.
Example C93_withdraw_conversion_case : withdraw_conversion ConstantProduct 1007 1000003 500003 777777 = Passed.
Proof.
  apply C93_withdraw_conversion_partial; [repeat split; vm_compute; congruence .. | | |]; vm_compute; congruence.
Qed.

(** ** C94: offset *)

(** C94.  As C93, with the draws that the test discards. *)
Theorem C94_swap_a_to_b_partial : forall source ss sd o,
  drawn64 source -> drawn64 ss -> drawn64 sd -> drawn64 o ->
  let v := offset_value_swap_a_to_b source ss sd o in
  v = Rejected \/ passes_with_a_trade v (swap_without_fees (Offset o) source ss sd AtoB).
Proof. exact offset_swap_a_to_b_test. Qed.
Print Assumptions C94_swap_a_to_b_partial.

Theorem C94_swap_b_to_a_partial : forall source ss sd o,
  drawn64 source -> drawn64 ss -> drawn64 sd -> drawn64 o ->
  let v := offset_value_swap_b_to_a source ss sd o in
  v = Rejected \/ passes_with_a_trade v (swap_without_fees (Offset o) source ss sd BtoA).
Proof. exact offset_swap_b_to_a_test. Qed.
Print Assumptions C94_swap_b_to_a_partial.
Example C94_swap_case :
  offset_value_swap_a_to_b 1007 100000 5003 111 = Passed /\ offset_value_swap_b_to_a 1007 100000 5003 111 = Passed /\
  offset_value_swap_a_to_b 100007 100000 503 50003 = Rejected /\
  offset_value_swap_b_to_a 1 u64_max u64_max u64_max = Rejected.
Proof. repeat split; vm_compute; reflexivity. Qed.

Theorem C94_swap_refuted : exists source ss sd o, drawn64 source /\ drawn64 ss /\ drawn64 sd /\ drawn64 o /\
  offset_value_swap_a_to_b source ss sd o = Broke.
Proof. exists 5, 15, 2, 1. repeat split; vm_compute; congruence. Qed.
Print Assumptions C94_swap_refuted.

Theorem C94_deposit : forall n supply a b o, drawn64 n -> drawn64 supply -> drawn64 a -> drawn_sum b o ->
  holds (offset_value_deposit n supply a b o).
Proof. exact offset_deposit_test. Qed.
Print Assumptions C94_deposit.
Example C94_deposit_case : offset_value_deposit 1007 100000 5003 777 1000 = Passed.
Proof. vm_compute. reflexivity. Qed.

Theorem C94_withdraw_refuted : exists n supply a b o, drawn_part supply n /\ drawn64 a /\ drawn_sum b o /\
  offset_value_withdraw n supply a b o = Violated.
Proof.
  exists 1, 3, 3, 14, 1. split; [repeat split; vm_compute; congruence |].
  split; [repeat split; vm_compute; congruence |].
  split; [exists 15; repeat split; vm_compute; congruence | vm_compute; reflexivity].
Qed.
Print Assumptions C94_withdraw_refuted.

Theorem C94_withdraw_partial : forall n supply a b o, drawn_part supply n -> drawn64 a -> drawn_sum b o ->
  let verdict := offset_value_withdraw n supply a b o in
  verdict = Rejected \/
  exists v v', normalized_value (Offset o) a b = Val v /\
    normalized_value (Offset o) (a - n * a / supply) (b - n * (b + o) / supply) = Val v' /\
    withdrawal_value_test verdict v v' n supply.
Proof. exact offset_withdraw_test. Qed.
Print Assumptions C94_withdraw_partial.
Example C94_withdraw_case : offset_value_withdraw 1007 100000 500003 77777 1000 = Passed.
Proof. vm_compute. reflexivity. Qed.

Theorem C94_conversions_refuted :
  (exists source ss sd supply o,
    drawn 2 u64_max source /\ drawn64 ss /\ drawn64 sd /\ drawn_supply supply /\ drawn64 o /\
    offset_deposit_conversion_a_to_b source ss sd supply o = Violated) /\
  (exists source ss sd supply o,
    drawn 2 u64_max source /\ drawn64 ss /\ drawn64 sd /\ drawn_supply supply /\ drawn64 o /\
    offset_deposit_conversion_b_to_a source ss sd supply o = Violated) /\
  (exists n supply a b o, drawn_part supply n /\ drawn64 a /\ drawn_sum b o /\
    offset_withdraw_conversion n supply a b o = Violated).
Proof.
  split; [exists 3, 1, 12, 1000000005, 11; repeat split; vm_compute; congruence |].
  split; [exists 8, 4, 5, 1000000004, 1; repeat split; vm_compute; congruence |].
  exists 7, 13, 5, 4, 2. split; [repeat split; vm_compute; congruence |].
  split; [repeat split; vm_compute; congruence |].
  split; [exists 6; repeat split; vm_compute; congruence | vm_compute; reflexivity].
Qed.
Print Assumptions C94_conversions_refuted.

(** C94.  As for C93, with the draws that the test discards; the offset counts as reserve. *)
Theorem C94_deposit_conversion_a_to_b_partial : forall source ss sd supply o,
  drawn 2 u64_max source -> drawn64 ss -> drawn64 sd -> drawn_supply supply -> drawn64 o ->
  10 ^ 4 <= source -> ss <= 10 ^ 5 * source ->
  let v := offset_deposit_conversion_a_to_b source ss sd supply o in
  v = Rejected \/ passes_with_a_trade v (swap_without_fees (Offset o) (source / 2) ss sd AtoB).
Proof. exact offset_deposit_conversion_a. Qed.
Print Assumptions C94_deposit_conversion_a_to_b_partial.

Theorem C94_deposit_conversion_b_to_a_partial : forall source ss sd supply o,
  drawn 2 u64_max source -> drawn64 ss -> drawn64 sd -> drawn_supply supply -> drawn64 o ->
  10 ^ 4 <= source -> ss + o <= 10 ^ 5 * source ->
  let v := offset_deposit_conversion_b_to_a source ss sd supply o in
  v = Rejected \/ passes_with_a_trade v (swap_without_fees (Offset o) (source / 2) ss sd BtoA).
Proof. exact offset_deposit_conversion_b. Qed.
Print Assumptions C94_deposit_conversion_b_to_a_partial.
Example C94_deposit_conversion_case :
  offset_deposit_conversion_a_to_b 10007 1000007 5000003 1000000004 1111 = Passed /\
  offset_deposit_conversion_a_to_b 10007 1000007 503 1000000004 999999 = Rejected /\
  offset_deposit_conversion_b_to_a 10007 1000007 5000003 1000000004 1111 = Passed /\
  offset_deposit_conversion_b_to_a 10007 u64_max u64_max 1000000004 u64_max = Rejected.
Proof. repeat split; vm_compute; reflexivity. Qed.

Theorem C94_withdraw_conversion_partial : forall n supply a b o, drawn_part supply n -> drawn64 a -> drawn_sum b o ->
  supply <= 10 ^ 7 * n ->
  500 * (supply * supply) <= n * (supply - n) * Z.min a (b + o) ->
  supply * supply <= (supply - n) * (supply - n) * Z.min a (b + o) ->
  holds (offset_withdraw_conversion n supply a b o).
Proof. exact offset_withdraw_conversion_holds. Qed.
Print Assumptions C94_withdraw_conversion_partial.
Example C94_withdraw_conversion_case : offset_withdraw_conversion 1007 1000003 500003 777777 10007 = Passed.
Proof. vm_compute. reflexivity. Qed.

(** ** C95: stable *)

(** C95.  The test of deposits holds for every draw. *)
Theorem C95_deposit : forall amp n supply a b, drawn64 n -> drawn64 supply -> drawn64 a -> drawn64 b ->
  holds (value_deposit (Stable amp) n supply a b).
Proof. exact (fun amp n s a b => product_deposit_test (Stable amp) n s a b (or_intror (ex_intro _ amp eq_refl))). Qed.
Print Assumptions C95_deposit.
Example C95_deposit_case : value_deposit (Stable 7) 1007 100000 5003 777 = Passed.
Proof. vm_compute. reflexivity. Qed.

(** C95.  The others do not, with the value that the released program computes. *)
Theorem C95_values_refuted :
  (exists amp source ss sd, drawn 1 100 amp /\ drawn64 source /\ drawn64 ss /\ drawn64 sd /\
    value_swap (Stable amp) source ss sd = Violated) /\
  (exists amp n supply a b, drawn 1 100 amp /\ drawn_part supply n /\ drawn64 a /\ drawn64 b /\
    value_withdraw (Stable amp) n supply a b = Violated).
Proof.
  split; [exists 61, 210061456528772119, 102477608470617105, 467499247472840983 | exists 4, 1, 2, 2, 12];
    repeat split; vm_compute; congruence.
Qed.
Print Assumptions C95_values_refuted.

Theorem C95_conversions_refuted :
  (exists amp source ss sd supply, drawn 1 100 amp /\
    drawn 2 u64_max source /\ drawn64 ss /\ drawn 2 u64_max sd /\ drawn_supply supply /\
    deposit_conversion (Stable amp) (CONVERSION_BASIS_POINTS_GUARANTEE * 100) source ss sd supply = Violated) /\
  (exists amp n supply a b, drawn 1 100 amp /\ drawn_part supply n /\ drawn64 a /\ drawn64 b /\
    withdraw_conversion (Stable amp) n supply a b = Violated).
Proof.
  split; [exists 3, 5, 5, 3, 1000000004 | exists 2, 2, 3, 1, 1]; repeat split; vm_compute; congruence.
Qed.
Print Assumptions C95_conversions_refuted.
Example C95_conversions_case :
  verdict_of (check_deposit_token_conversion (Stable 1) 2 10 3 AtoB 1000000000 50) = Passed /\
  deposit_conversion (Stable 1) 50 2 10 3 1000000000 = Violated.
Proof. split; vm_compute; reflexivity. Qed.

(** C95.  The simulation and the program follow the same sequence to the invariant: the
    program takes its 32nd number, the simulation the first that has settled ... *)
Theorem C95_same_sequence : forall amp a b, 1 <= amp -> 2 * amp <= u64_max -> is_u64 a -> is_u64 b -> 0 < a + b ->
  let seq i := Nat.iter i (d_step (2 * amp) a b) (a + b) in
  exists k, sim_d amp a b = Some (seq k) /\ stops_at seq k /\ compute_d (2 * amp) a b = Val (seq 32%nat).
Proof. exact sim_d_sequence. Qed.
Print Assumptions C95_same_sequence.
Example C95_same_sequence_case :
  sim_d 7 1000003 777 = Some 313762 /\ compute_d 14 1000003 777 = Val 313762.
Proof. split; vm_compute; reflexivity. Qed.

(** ... so they can disagree on the invariant, where the sequence never settles ... *)
Theorem C95_invariant_refuted : exists amp a b d d', 1 <= amp /\ 2 * amp <= u64_max /\ is_u64 a /\ is_u64 b /\
  sim_d amp a b = Some d /\ compute_d (2 * amp) a b = Val d' /\ d <> d'.
Proof.
  exists 2, 64083, 47, 13787, 13785. repeat split; vm_compute; congruence.
Qed.
Print Assumptions C95_invariant_refuted.

(** ... The simulated trade leaves coin 1 at the first settled number of a second sequence,
    unless that meets a division by zero ... *)
Theorem C95_simulated_trade : forall amp a b dx d, 1 <= amp -> 0 < a + dx -> sim_d amp a b = Some d ->
  let seq i := Nat.iter i (sim_reserve_step amp (a + dx) d) d in
  exists k, sim_exchange amp a b dx = Some (b - seq k) /\ stops_at seq k \/
    sim_exchange amp a b dx = None /\ (forall i, (i <= k)%nat -> 1 < gap seq i) /\
    2 * seq k + (a + dx) + d / (2 * amp) - d = 0.
Proof. exact sim_trade_sequence. Qed.
Print Assumptions C95_simulated_trade.
Example C95_simulated_trade_case :
  sim_d 50 1000003 777777 = Some 1777503 /\ sim_exchange 50 1000003 777777 10007 = Some 9955.
Proof. split; vm_compute; reflexivity. Qed.

(** ... and they differ on a trade by more than the test of stable.rs allows. *)
Theorem C95_simulation_refuted : exists ss sd source amp,
  drawn 100 1000000000000000000 ss /\ drawn 100 1000000000000000000 sd /\ drawn 100 100000000000 source /\
  drawn 1 150 amp /\ simulation_test ss sd source amp = Violated.
Proof.
  exists 138268741728526048, 481100059172997696, 1393932, 3. repeat split; vm_compute; congruence.
Qed.
Print Assumptions C95_simulation_refuted.
Example C95_simulation_case : simulation_test 1000003 777777 10007 50 = Passed /\
  simulation_test 1000003 777777 1000002 50 = Passed /\ simulation_test 1000003 777777 1000003 50 = Rejected.
Proof. repeat split; vm_compute; reflexivity. Qed.

(** ** C96: linear price *)

(** C96.  The test of purchases passes where there is a trade ... *)
Theorem C96_buy_partial : forall source ss, drawn64 source -> drawn64 ss ->
  passes_with_a_trade (linear_value_swap_a_to_b source ss) (swap_a_to_b test_curve_buy source ss u64_max).
Proof. exact linear_buy_test. Qed.
Print Assumptions C96_buy_partial.
Example C96_buy_case : linear_value_swap_a_to_b 1000000000000000000 1000000000000000000 = Passed /\
  swap_a_to_b test_curve_buy 10000000000000000 5 u64_max = Val (10000000000000000, 2826969827027027).
Proof. split; vm_compute; reflexivity. Qed.

(** ... but for some draws there is none, ... *)
Theorem C96_buy_refuted : exists source ss, drawn64 source /\ drawn64 ss /\
  linear_value_swap_a_to_b source ss = Broke.
Proof. exists 1, 1. repeat split; vm_compute; congruence. Qed.
Print Assumptions C96_buy_refuted.

(** ... and the test of sales fails on some: a sale lowers the value. *)
Theorem C96_sell_refuted : exists source sd, drawn64 source /\ drawn64 sd /\
  linear_value_swap_b_to_a source sd = Violated.
Proof. exists 1, 24788417170636800. repeat split; vm_compute; congruence. Qed.
Print Assumptions C96_sell_refuted.
Example C96_sell_case : linear_value_swap_b_to_a 1000000 5 = Passed /\ linear_value_swap_b_to_a 1 5 = Passed.
Proof. split; vm_compute; reflexivity. Qed.

(** C96, what is true of sales: without a trade the test breaks off, otherwise the value the curve
    reports falls by at most one in its last (32nd) bit, and the test passes where it does not fall.
    (Full statement: it never falls.) *)
Theorem C96_sell_partial : forall source sd, drawn64 source -> drawn64 sd ->
  sale_value_test (linear_value_swap_b_to_a source sd) (swap_b_to_a test_curve_sell source u64_max sd)
    (linear_normalized_value test_curve_sell) u64_max sd.
Proof. exact linear_sell_test. Qed.
Print Assumptions C96_sell_partial.
Example C96_sell_falls : swap_b_to_a test_curve_sell 1 u64_max 24788417170636800 = Val (1, 222) /\
  linear_normalized_value test_curve_sell 24788417170636800 u64_max = Val 3725335264 /\
  linear_normalized_value test_curve_sell (24788417170636800 - 222) (u64_max + 1) = Val 3725335263 /\
  linear_value_swap_b_to_a 1000000 9999999999999999999 = Broke.
Proof. repeat split; vm_compute; reflexivity. Qed.
