(** C124: earlier and later traders. *)
From Verif Require Import Ints DfsPrecise Fees LinearCurve SwapCurve Codec Token Processor Api History
  Spec LedgerSpec LinearFacts LinearProps LinearRound LockSpec LaterFacts.

(** C124, that a later buyer never gets more for the same offer: false.  The second buyer gets over
    five percent more than the first. *)
Theorem C124_buyer_refuted : exists c s a dest r r', linear_wf c /\ linear_validate c = Ok tt /\ is_u64 s /\ is_u64 a /\ is_u64 dest /\
  curve_swap (LinearPrice c) s a dest AtoB no_fees = Val r /\
  curve_swap (LinearPrice c) s (new_swap_source_amount r) (new_swap_destination_amount r) AtoB no_fees = Val r' /\
  source_amount_swapped r = s /\ source_amount_swapped r' = s /\
  20 * destination_amount_swapped r' > 21 * destination_amount_swapped r.
Proof. exact later_more. Qed.
Print Assumptions C124_buyer_refuted.

(** C124 for purchases: the later buyer gets at most one token more, but for the blur of the square
    root and what two units of collateral buy; at most one token if these make less than a token.
    (Full statement: no more.) *)
Theorem C124_buyer_partial : forall c f X g u s a a' dest dest' r r', linear_wf c -> linear_validate c = Ok tt -> feeless f ->
  blur c X g -> one_unit c u ->
  is_u64 s -> is_u64 a -> is_u64 a' -> is_u64 dest -> is_u64 dest' -> a <= a' -> dest' <= dest ->
  curve_swap (LinearPrice c) s a dest AtoB f = Val r -> curve_swap (LinearPrice c) s a' dest' AtoB f = Val r' ->
  cost2_den c * (a + s) < cost2 c X ->
  let n := destination_amount_swapped r in let n' := destination_amount_swapped r' in
  (n' <= n \/ (n' - n - 1) * ONE < g + g / 10 ^ 9 + 2 * u + 3) /\ (g + g / 10 ^ 9 + 2 * u + 3 <= ONE -> n' <= n + 1).
Proof. exact later_swap. Qed.
Print Assumptions C124_buyer_partial.

(** The same on the ledger, for any two reachable ledgers: whatever happened in between. *)
Theorem C124_buyer_ledger_partial : forall e k s c X g u sg1 sg2 acc1 acc2 n m1 m2 w1 w2 w1' w2', env_ok e -> reachable e w1 -> reachable e w2 ->
  pool_at w1 k s -> pool_at w2 k s -> st_curve s = LinearPrice c -> blur c X g -> one_unit c u ->
  nth 0 acc1 0 = k -> nth 0 acc2 0 = k -> nth 4 acc1 0 = st_token_a s -> nth 4 acc2 0 = st_token_a s ->
  exec e sg1 w1 (Swap acc1 n m1) = Ok w1' -> exec e sg2 w2 (Swap acc2 n m2) = Ok w2' ->
  balance w1 (st_token_a s) <= balance w2 (st_token_a s) -> balance w2 (st_token_b s) <= balance w1 (st_token_b s) ->
  cost2_den c * (balance w1 (st_token_a s) + n) < cost2 c X ->
  let x := balance w1 (st_token_b s) - balance w1' (st_token_b s) in
  let x' := balance w2 (st_token_b s) - balance w2' (st_token_b s) in
  (x' <= x \/ (x' - x - 1) * ONE < g + g / 10 ^ 9 + 2 * u + 3) /\ (g + g / 10 ^ 9 + 2 * u + 3 <= ONE -> x' <= x + 1).
Proof. exact later_ledger. Qed.
Print Assumptions C124_buyer_ledger_partial.

(** C124, that a seller never gets less when the pool has more: false.  A unit more in the pool, and
    eight tokens pay 1397 units less, the price of one. *)
Theorem C124_seller_refuted : exists c n ss a r r', linear_wf c /\ linear_validate c = Ok tt /\ is_u64 n /\ is_u64 ss /\ is_u64 a /\ is_u64 (a + 1) /\
  curve_swap (LinearPrice c) n ss a BtoA no_fees = Val r /\ curve_swap (LinearPrice c) n ss (a + 1) BtoA no_fees = Val r' /\
  source_amount_swapped r = n /\ source_amount_swapped r' = n /\
  destination_amount_swapped r = 11187 /\ destination_amount_swapped r' = 9790.
Proof. exact later_less. Qed.
Print Assumptions C124_seller_refuted.

(** C124 for sales: with two tokens more, and further tokens for the blur and a unit of collateral if these
    make more than a token, the seller at the fuller pool gets at least as much, but for one unit.
    (Full statement: with the same number of tokens.) *)
Theorem C124_seller_partial : forall c f X g u n n' ss ss' a a' r r', linear_wf c -> linear_validate c = Ok tt -> feeless f ->
  blur c X g -> one_unit c u ->
  is_u64 n -> is_u64 n' -> is_u64 ss -> is_u64 ss' -> is_u64 a -> is_u64 a' -> a <= a' ->
  curve_swap (LinearPrice c) n ss a BtoA f = Val r -> curve_swap (LinearPrice c) n' ss' a' BtoA f = Val r' ->
  cost2_den c * a' < cost2 c X -> g + u + 3 <= (n' - n - 1) * ONE ->
  destination_amount_swapped r <= destination_amount_swapped r' + 1.
Proof. exact later_sale. Qed.
Print Assumptions C124_seller_partial.

Theorem C124_seller_ledger_partial : forall e k s c X g u sg1 sg2 acc1 acc2 n n' m1 m2 w1 w2 w1' w2', env_ok e -> reachable e w1 -> reachable e w2 ->
  pool_at w1 k s -> pool_at w2 k s -> st_curve s = LinearPrice c -> blur c X g -> one_unit c u ->
  nth 0 acc1 0 = k -> nth 0 acc2 0 = k -> nth 4 acc1 0 <> st_token_a s -> nth 4 acc2 0 <> st_token_a s ->
  exec e sg1 w1 (Swap acc1 n m1) = Ok w1' -> exec e sg2 w2 (Swap acc2 n' m2) = Ok w2' ->
  balance w1 (st_token_a s) <= balance w2 (st_token_a s) ->
  cost2_den c * balance w2 (st_token_a s) < cost2 c X -> g + u + 3 <= (n' - n - 1) * ONE ->
  balance w1 (st_token_a s) - balance w1' (st_token_a s) <= balance w2 (st_token_a s) - balance w2' (st_token_a s) + 1.
Proof. exact later_sale_ledger. Qed.
Print Assumptions C124_seller_ledger_partial.

(** Slope 1/2, starting price 50, where the tolerances are small: a second purchase for 206 gets as many
    tokens as the first.  Nine tokens pay a token less in a pool with two units more; eleven pay more. *)
Example C124_case : let c := mk_linear 1 2 50 1 in let g := 6 * 10 ^ 12 in let u := 2 * 10 ^ 16 in let X := 6200 * 10 ^ 18 in
  blur c X g /\ one_unit c u /\ g + g / 10 ^ 9 + 2 * u + 3 <= ONE /\ g + u + 3 <= (11 - 9 - 1) * ONE /\
  cost2_den c * (51 + 206) < cost2 c X /\ cost2_den c * 9361102 < cost2 c X /\
  curve_swap (LinearPrice c) 206 51 5000 AtoB no_fees = Val (mk_swap_result 257 4997 206 3 0 0) /\
  curve_swap (LinearPrice c) 206 257 4997 AtoB no_fees = Val (mk_swap_result 463 4994 206 3 0 0) /\
  curve_swap (LinearPrice c) 9 0 9361100 BtoA no_fees = Val (mk_swap_result 9 9333581 9 27519 0 0) /\
  curve_swap (LinearPrice c) 9 0 9361102 BtoA no_fees = Val (mk_swap_result 9 9336636 9 24466 0 0) /\
  curve_swap (LinearPrice c) 11 0 9361102 BtoA no_fees = Val (mk_swap_result 11 9330525 11 30577 0 0).
Proof. vm_compute. repeat split; try reflexivity; discriminate. Qed.
