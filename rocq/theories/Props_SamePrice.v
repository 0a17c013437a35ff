(** How far apart the payments for the same number of tokens can be: C11. *)
From Verif Require Import Ints Fees LinearCurve SwapCurve Codec Token Processor Api History Spec LedgerSpec LinearProps LinearHistory LinearBacked
  LedgerExamples HistoryExamples CoverWitness SandwichFacts SamePrice.

(** C11.  Two sales that take the same number of tokens from the same reserve pay amounts less than a unit
    more than the price of the first token of the curve apart. *)
Theorem C11_first_token_partial : forall c f ss ss' a n n' r r', linear_wf c -> feeless f ->
  is_u64 a -> is_u64 ss -> is_u64 ss' -> is_u64 n -> is_u64 n' ->
  curve_swap (LinearPrice c) n ss a BtoA f = Val r -> curve_swap (LinearPrice c) n' ss' a BtoA f = Val r' ->
  source_amount_swapped r = source_amount_swapped r' ->
  (destination_amount_swapped r' - destination_amount_swapped r - 1) * cost_den c < cost_num c 1.
Proof. exact same_tokens. Qed.
Print Assumptions C11_first_token_partial.

(** C11 on the ledger: sales to a pool at any two times at which it holds the same collateral. *)
Theorem C11_ledger_partial : forall e k s c sg1 sg2 acc1 acc2 n n' m1 m2 w1 w2 w1' w2', env_ok e -> reachable e w1 -> reachable e w2 ->
  pool_at w1 k s -> pool_at w2 k s -> st_curve s = LinearPrice c ->
  nth 0 acc1 0 = k -> nth 0 acc2 0 = k -> nth 4 acc1 0 <> st_token_a s -> nth 4 acc2 0 <> st_token_a s ->
  exec e sg1 w1 (Swap acc1 n m1) = Ok w1' -> exec e sg2 w2 (Swap acc2 n' m2) = Ok w2' ->
  balance w1 (st_token_a s) = balance w2 (st_token_a s) ->
  balance w1' (st_token_b s) - balance w1 (st_token_b s) = balance w2' (st_token_b s) - balance w2 (st_token_b s) ->
  (balance w1' (st_token_a s) - balance w2' (st_token_a s) - 1) * cost_den c < cost_num c 1.
Proof. exact same_tokens_ledger. Qed.
Print Assumptions C11_ledger_partial.

(** Slope 1/2, starting price 50: the first token costs 50.25.  Ten tokens are bought for 530.  Offered
    as ten they pay 479, offered as eleven 530, and ten are taken. *)
Example C11_first_token_case : let c := mk_linear 1 2 50 1 in
  curve_swap (LinearPrice c) 10 4990 530 BtoA no_fees = Val (mk_swap_result 5000 51 10 479 0 0) /\
  curve_swap (LinearPrice c) 11 4990 530 BtoA no_fees = Val (mk_swap_result 5000 0 10 530 0 0) /\
  cost_num c 1 = 201 /\ cost_den c = 4.
Proof. vm_compute. intuition congruence. Qed.

Example C11_ledger_case : let w := run1 [901] sw_w1 (cw_buy 530) in
  let w1 := run1 [901] w (cw_sell 10) in let w2 := run1 [901] w (cw_sell 11) in
  balance w 112 = 10 /\ balance w1 112 = 0 /\ balance w2 112 = 0 /\
  balance w 101 = 530 /\ balance w1 101 = 51 /\ balance w2 101 = 0.
Proof. repeat split; try (vm_compute; reflexivity). Qed.
