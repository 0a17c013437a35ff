(** Larger offers of tokens to a linear pool: C125. *)
From Verif Require Import Ints DfsPrecise Fees LinearCurve SwapCurve Codec Token Processor Api History Spec LedgerSpec LiveSpec
  LinearProps LedgerExamples HistoryExamples CoverWitness OfferLedger.

(** C125.  A pool that buys [n] tokens buys any larger number, for at least as much. *)
Theorem C125_more : forall c f n n' ss a r, linear_wf c -> feeless f ->
  is_u64 n -> is_u64 n' -> is_u64 ss -> is_u64 a -> n <= n' ->
  curve_swap (LinearPrice c) n ss a BtoA f = Val r ->
  exists r', curve_swap (LinearPrice c) n' ss a BtoA f = Val r' /\
    destination_amount_swapped r <= destination_amount_swapped r'.
Proof. exact sale_more. Qed.
Print Assumptions C125_more.

(** C125.  So there is a smallest sale: exactly the offers from it on are accepted.  [2 ^ 64] means that
    none is. *)
Theorem C125_smallest : forall c f ss a, linear_wf c -> feeless f -> is_u64 ss -> is_u64 a ->
  exists t, 0 < t <= 2 ^ 64 /\ forall n, is_u64 n ->
    ((exists r, curve_swap (LinearPrice c) n ss a BtoA f = Val r) <-> t <= n).
Proof. exact smallest_sale. Qed.
Print Assumptions C125_smallest.

(** C125 on the ledger: a seller whose offer was accepted could have offered more with the same limit,
    as long as they own the tokens, the vault has room for them and the seller's account for the
    collateral of the pool; and the pool would have paid at least as much. *)
Theorem C125_ledger : forall e signers w pool authority s c user source dest rest n n' mout x w1,
  env_ok e -> reachable e w -> signers_ok e signers ->
  pool_at w pool s -> st_curve s = LinearPrice c -> find_pda e pool = Some (authority, st_bump_seed s) ->
  is_u64 n -> is_u64 n' -> is_u64 mout -> In user signers -> single_signer w user -> single_signer w authority ->
  thawed w (st_token_a s) -> thawed w (st_token_b s) -> wallet w source user (st_token_b_mint s) x ->
  accepts w dest (st_token_a_mint s) (balance w (st_token_a s)) ->
  n <= n' -> n' <= x -> balance w (st_token_b s) + n' <= u64_max ->
  let accounts := pool :: authority :: user :: source :: st_token_b s :: st_token_a s :: dest
                    :: st_pool_mint s :: st_pool_fee_account s :: TOKEN_PROGRAM_ID :: rest in
  exec e signers w (Swap accounts n mout) = Ok w1 ->
  exists w2, exec e signers w (Swap accounts n' mout) = Ok w2 /\ balance w2 (st_token_a s) <= balance w1 (st_token_a s).
Proof. exact sell_more_ledger. Qed.
Print Assumptions C125_ledger.

(** C125 for the pool of C78_can_sell_refuted, which has taken in 10^9 units for 786 tokens: it takes
    back 148 tokens or more. *)
Theorem C125_hoard : forall ss n, is_u64 ss -> is_u64 n ->
  (exists r, curve_swap (LinearPrice (mk_linear 1 1000000 1000000 1)) n ss 1000000000 BtoA no_fees = Val r) <-> 148 <= n.
Proof. exact hoard_sales. Qed.
Print Assumptions C125_hoard.

(** The same pool, and three sales of 18 tokens bought for 1000 units on the example ledger. *)
Example C125_case :
  let sale n := curve_swap (LinearPrice (mk_linear 1 1000000 1000000 1)) n 999214 1000000000 BtoA no_fees in
  let buy := run1 [901] ex_w2 (cw_buy 1000) in
  sale 147 = Non /\ sale 148 = Val (mk_swap_result 999362 999000001 148 999999 0 0) /\
  sale 2000 = Val (mk_swap_result 1000361 0 1147 1000000000 0 0) /\
  bals (Ok (run1 [901] buy (cw_sell 8))) [101; 102; 111; 112] = [581; 4990; 99419; 50010] /\
  bals (Ok (run1 [901] buy (cw_sell 18))) [101; 102; 111; 112] = [51; 5000; 99949; 50000] /\
  bals (Ok (run1 [901] buy (cw_sell 30))) [101; 102; 111; 112] = [0; 5000; 100000; 50000].
Proof. vm_compute. repeat split; reflexivity. Qed.
