(** Sequences of trades on linear pools: C72, C73. *)
From Verif Require Import Ints Tactics DfsPrecise Fees LinearCurve SwapCurve Codec Token Processor Api History
  Spec LedgerSpec TraceSpec LinearProps LinearRound LinearBacked LedgerExamples HistoryExamples
  CoverFacts CoverWitness SplitFacts.

(** C72.  Trades that put the bonded vault back where it was leave at least as
    much collateral.  Not proved, and false: see [C72_loop_refuted].  What holds,
    from any point of the life of a linear pool with an exact decimal image on: if
    the collateral covers [x] tokens, it goes on covering [x] tokens plus those that
    the swaps took out since, as long as the vault is never emptied.  In particular
    a loop keeps the collateral above the cost of any tokens it covered before. *)
Theorem C72_cover_partial : forall e w l w' k s c x, env_ok e -> reachable e w -> trace e w l w' ->
  pool_at w k s -> st_curve s = LinearPrice c -> decimal c ->
  let va := st_token_a s in let vb := st_token_b s in
  Forall (fun p => 0 < balance (snd p) vb) l ->
  0 <= x -> cost_num c x <= cost_den c * balance w va ->
  cost_num c (Z.max 0 (x + drawn k vb w l)) <= cost_den c * balance w' va.
Proof. exact cover_trace. Qed.
Print Assumptions C72_cover_partial.

(** C72, the vault may be emptied: one unit may be missing. *)
Theorem C72_cover_sell_out_partial : forall e w evs w' k s c x, env_ok e -> reachable e w -> history e w evs w' ->
  pool_at w k s -> st_curve s = LinearPrice c -> decimal c ->
  let va := st_token_a s in let vb := st_token_b s in
  price_num_at c ((x + balance w vb) * ONE) <= 10 ^ 17 * (slope_den c * price_den c * ONE) ->
  0 <= x -> cost_num c x <= cost_den c * balance w va ->
  cost_num c (Z.max 0 (x + balance w vb - balance w' vb)) <= cost_den c * (balance w' va + 1).
Proof. exact cover_history. Qed.
Print Assumptions C72_cover_sell_out_partial.

(** C72 refuted: the 125 of collateral stand for 2.48 tokens.  Whoever offers 3
    gives 2 and takes all 125; buying the 2 tokens back costs 101. *)
Theorem C72_loop_refuted : exists e w l w' k s c,
  env_ok e /\ reachable e w /\ trace e w l w' /\ pool_at w k s /\ st_curve s = LinearPrice c /\ decimal c /\
  Forall (fun p => swaps_on k (fst p) = true /\ 0 < balance (snd p) (st_token_b s)) l /\
  balance w' (st_token_b s) = balance w (st_token_b s) /\
  balance w' (st_token_a s) < balance w (st_token_a s).
Proof. exact cw_loop. Qed.
Print Assumptions C72_loop_refuted.

(** The vaults in that loop; the two tokens covered at the start cost 101. *)
Example C72_case :
  bals (Ok ex_w2) [101; 102] = [0; 5000] /\ bals (Ok cw_a) [101; 102] = [125; 4998] /\
  bals (Ok cw_b) [101; 102] = [0; 5000] /\ bals (Ok cw_c) [101; 102] = [101; 4998] /\
  cost_num (mk_linear 1 2 50 1) 2 = cost_den (mk_linear 1 2 50 1) * 101.
Proof. vm_compute. repeat split; reflexivity. Qed.

(** C73.  Selling in two parts pays no more than selling at once.  Proved for
    parameters with an exact decimal image, and for slopes of at least 10^-17 with a
    starting price of at least 1/5; false in general. *)
Theorem C73_split_sale_decimal_partial : forall c f n1 n2 ss a r1 r2 r,
  linear_wf c -> feeless f -> decimal c -> is_u64 a -> is_u64 ss -> is_u64 n1 -> is_u64 n2 -> is_u64 (n1 + n2) ->
  is_u64 (new_swap_source_amount r1) ->
  curve_swap (LinearPrice c) n1 ss a BtoA f = Val r1 ->
  curve_swap (LinearPrice c) n2 (new_swap_source_amount r1) (new_swap_destination_amount r1) BtoA f = Val r2 ->
  curve_swap (LinearPrice c) (n1 + n2) ss a BtoA f = Val r ->
  destination_amount_swapped r1 + destination_amount_swapped r2 <= destination_amount_swapped r.
Proof. exact split_sale_decimal. Qed.
Print Assumptions C73_split_sale_decimal_partial.

Theorem C73_split_sale_dear_partial : forall c f n1 n2 ss a r1 r2 r,
  linear_wf c -> feeless f -> 10 * slope_den c <= slope_num c * ONE -> price_den c <= 5 * price_num c ->
  is_u64 a -> is_u64 ss -> is_u64 n1 -> is_u64 n2 -> is_u64 (n1 + n2) ->
  is_u64 (new_swap_source_amount r1) ->
  curve_swap (LinearPrice c) n1 ss a BtoA f = Val r1 ->
  curve_swap (LinearPrice c) n2 (new_swap_source_amount r1) (new_swap_destination_amount r1) BtoA f = Val r2 ->
  curve_swap (LinearPrice c) (n1 + n2) ss a BtoA f = Val r ->
  destination_amount_swapped r1 + destination_amount_swapped r2 <= destination_amount_swapped r.
Proof. exact split_sale_dear. Qed.
Print Assumptions C73_split_sale_dear_partial.

Theorem C73_split_sale_refuted : exists c n1 n2 ss a r1 r2 r,
  linear_wf c /\ linear_validate c = Ok tt /\ is_u64 a /\ is_u64 ss /\ is_u64 (n1 + n2) /\
  curve_swap (LinearPrice c) n1 ss a BtoA no_fees = Val r1 /\
  curve_swap (LinearPrice c) n2 (new_swap_source_amount r1) (new_swap_destination_amount r1) BtoA no_fees = Val r2 /\
  curve_swap (LinearPrice c) (n1 + n2) ss a BtoA no_fees = Val r /\
  source_amount_swapped r1 + source_amount_swapped r2 = source_amount_swapped r /\
  destination_amount_swapped r < destination_amount_swapped r1 + destination_amount_swapped r2.
Proof. exact split_sale_profit. Qed.
Print Assumptions C73_split_sale_refuted.

(** Slope 1/2, price 50, 1000 of collateral: 10 tokens at once pay 529, in parts of
    4 and 6 they pay 193 and 282. *)
Example C73_case :
  let sell n ss a := match curve_swap (LinearPrice (mk_linear 1 2 50 1)) n ss a BtoA no_fees with
    | Val r => (source_amount_swapped r, destination_amount_swapped r) | _ => (0, 0) end in
  sell 10 100 1000 = (10, 529) /\ sell 4 100 1000 = (4, 193) /\ sell 6 104 807 = (6, 282).
Proof. vm_compute. repeat split; reflexivity. Qed.
