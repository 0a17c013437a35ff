(** C06, C73: how much a round trip or a split sale on a linear curve can gain at most. *)
From Verif Require Import Ints Fees LinearCurve SwapCurve Spec LinearProps LinearRound GainFacts.

(** C06, refuted a second time: parameters are whole numbers, but at a price of 4.6 * 10^18 the unit of 10^-18
    tokens in which positions are counted costs several units of collateral.  Buying one token and selling
    it back gains 3. *)
Theorem C06_dear_refuted : exists c s a dest r1 r2,
  linear_wf c /\ linear_validate c = Ok tt /\ slope_den c = 1 /\ price_den c = 1 /\
  is_u64 a /\ is_u64 s /\ is_u64 dest /\ is_u64 (new_swap_source_amount r1) /\
  curve_swap (LinearPrice c) s a dest AtoB (mk_fees 0 0 0 0 0 0 0 0) = Val r1 /\
  curve_swap (LinearPrice c) (destination_amount_swapped r1) (new_swap_destination_amount r1)
    (new_swap_source_amount r1) BtoA (mk_fees 0 0 0 0 0 0 0 0) = Val r2 /\
  destination_amount_swapped r1 = 1 /\ destination_amount_swapped r2 = source_amount_swapped r1 + 3.
Proof. exact gain_dear. Qed.
Print Assumptions C06_dear_refuted.

(** At a price of almost 2^64 it gains 36 units, all the pool had. *)
Theorem C06_dearest_refuted : exists c s a dest r1 r2,
  linear_wf c /\ linear_validate c = Ok tt /\ is_u64 a /\ is_u64 s /\ is_u64 dest /\ is_u64 (new_swap_source_amount r1) /\
  curve_swap (LinearPrice c) s a dest AtoB (mk_fees 0 0 0 0 0 0 0 0) = Val r1 /\
  curve_swap (LinearPrice c) (destination_amount_swapped r1) (new_swap_destination_amount r1)
    (new_swap_source_amount r1) BtoA (mk_fees 0 0 0 0 0 0 0 0) = Val r2 /\
  destination_amount_swapped r1 = 1 /\ destination_amount_swapped r2 = source_amount_swapped r1 + 36 /\
  new_swap_destination_amount r2 = 0.
Proof. exact gain_dearest. Qed.
Print Assumptions C06_dearest_refuted.

(** C06 for all curves that can be created: a round trip gains at most 39 units. *)
Theorem C06_gain_partial : forall c f s a dest r1 r2,
  linear_wf c -> linear_validate c = Ok tt -> feeless f ->
  is_u64 a -> is_u64 s -> is_u64 dest -> is_u64 (new_swap_source_amount r1) ->
  curve_swap (LinearPrice c) s a dest AtoB f = Val r1 ->
  curve_swap (LinearPrice c) (destination_amount_swapped r1) (new_swap_destination_amount r1)
    (new_swap_source_amount r1) BtoA f = Val r2 ->
  destination_amount_swapped r2 <= source_amount_swapped r1 + 39.
Proof. exact gain_any. Qed.
Print Assumptions C06_gain_partial.

(** C06 for starting prices up to 10^17 and slopes up to 10^14, however small: at most 2 units, which is
    what the witness of C06_round_trip_refuted gains. *)
Theorem C06_gain_two_partial : forall c f s a dest r1 r2,
  linear_wf c -> linear_validate c = Ok tt -> moderate c -> feeless f ->
  is_u64 a -> is_u64 s -> is_u64 dest -> is_u64 (new_swap_source_amount r1) ->
  curve_swap (LinearPrice c) s a dest AtoB f = Val r1 ->
  curve_swap (LinearPrice c) (destination_amount_swapped r1) (new_swap_destination_amount r1)
    (new_swap_source_amount r1) BtoA f = Val r2 ->
  destination_amount_swapped r2 <= source_amount_swapped r1 + 2.
Proof. exact gain_moderate. Qed.
Print Assumptions C06_gain_two_partial.

(** The least slope, 10^-18, and a starting price of 3. *)
Example C06_gain_case :
  let c := mk_linear 1 (10 ^ 18) 3 1 in linear_validate c = Ok tt /\ moderate c /\
  curve_swap (LinearPrice c) (10 ^ 12) 0 (10 ^ 12) AtoB (mk_fees 0 0 0 0 0 0 0 0)
    = Val (mk_swap_result (10 ^ 12) 667000000000 (10 ^ 12) 333000000000 0 0) /\
  curve_swap (LinearPrice c) 333000000000 667000000000 (10 ^ 12) BtoA (mk_fees 0 0 0 0 0 0 0 0)
    = Val (mk_swap_result (10 ^ 12) 3000000001 333000000000 996999999999 0 0).
Proof. vm_compute. repeat split; congruence. Qed.

(** C73 for all curves that can be created: a sale in two parts pays at most 2 units more than the sale at once. *)
Theorem C73_gain_partial : forall c f n1 n2 ss a r1 r2 r,
  linear_wf c -> linear_validate c = Ok tt -> feeless f -> is_u64 a -> is_u64 ss -> is_u64 n1 -> is_u64 n2 -> is_u64 (n1 + n2) ->
  is_u64 (new_swap_source_amount r1) ->
  curve_swap (LinearPrice c) n1 ss a BtoA f = Val r1 ->
  curve_swap (LinearPrice c) n2 (new_swap_source_amount r1) (new_swap_destination_amount r1) BtoA f = Val r2 ->
  curve_swap (LinearPrice c) (n1 + n2) ss a BtoA f = Val r ->
  destination_amount_swapped r1 + destination_amount_swapped r2 <= destination_amount_swapped r + 2.
Proof. exact split_gain. Qed.
Print Assumptions C73_gain_partial.
(** The witness of C73_split_sale_refuted. *)
Example C73_gain_case :
  let sell n ss a := match curve_swap (LinearPrice (mk_linear 3 2669539526331634176 62408 505452228)) n ss a BtoA
      (mk_fees 0 0 0 0 0 0 0 0) with
    | Val r => (new_swap_source_amount r, new_swap_destination_amount r, destination_amount_swapped r) | _ => (0, 0, 0) end in
  sell (24199 + 102062) 1000 21 = (127261, 7, 14) /\ sell 24199 1000 21 = (25199, 19, 2) /\ sell 102062 25199 19 = (127261, 6, 13).
Proof. vm_compute. repeat split; reflexivity. Qed.
