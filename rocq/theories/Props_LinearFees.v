(** C117: linear pools with fees. *)
From Verif Require Import Ints Fees LinearCurve SwapCurve Codec Token Processor Api History Spec LedgerSpec
  LedgerExamples LinearFees.

(** C117, refuted.  The full claim is a comment at the head of [linear_price.rs]: the curve only
    works with fees set to 0, the processor's swap fails otherwise.  With a trading fee of one
    percent the processor creates a pool that trades. *)
Theorem C117_only_without_refuted : exists e signers w accounts f c w1 i w2 s,
  env_ok e /\ process_initialize e signers w f (LinearPrice c) accounts = Ok w1 /\ trade_fee_num f <> 0 /\
  pool_at w1 (nth 0 accounts 0) s /\ st_curve s = LinearPrice c /\ st_fees s = f /\
  named_pool i = nth 0 accounts 0 /\ exec e [901] w1 i = Ok w2 /\ balance w2 (st_token_b s) < balance w1 (st_token_b s).
Proof. exact trade_fee_works. Qed.
Print Assumptions C117_only_without_refuted.

(** C117 for the owner's fee: whatever the ledger, no swap with such a pool succeeds.
    (Full statement: the same for the trading fee.) *)
Theorem C117_owner_fee_partial : forall e signers w accounts ain mout s c, world_wf w ->
  pool_at w (nth 0 accounts 0) s -> st_curve s = LinearPrice c -> owner_trade_fee_num (st_fees s) <> 0 ->
  ~ exists w', exec e signers w (Swap accounts ain mout) = Ok w'.
Proof. exact linear_owner_fee. Qed.
Print Assumptions C117_owner_fee_partial.

(** C117.  With the trading fee alone, a trade is the trade of the amount less the fee, and the
    fee stays with the collateral (or the tokens) of the pool. *)
Theorem C117_trading_fee : forall c f n ss sd d r, linear_wf c -> fees_wf f -> is_u64 n -> is_u64 ss -> is_u64 sd ->
  owner_trade_fee_num f = 0 ->
  (curve_swap (LinearPrice c) n ss sd d f = Val r) <->
  (exists fee r0, trading_fee f n = Val fee /\ fee <= n /\
    curve_swap (LinearPrice c) (n - fee) ss sd d (mk_fees 0 1 0 1 0 1 0 1) = Val r0 /\
    r = mk_swap_result (new_swap_source_amount r0 + fee) (new_swap_destination_amount r0)
          (source_amount_swapped r0 + fee) (destination_amount_swapped r0) fee 0).
Proof. exact linear_trade_fee. Qed.
Print Assumptions C117_trading_fee.

(** One percent for the pool works, one percent for the owner is an error (and no panic). *)
Example C117_case :
  bals (exec ex_env [901] (lf_w lf_trade) lf_swap) [101; 102; 111; 112] = [1000; 4982; 99000; 50018] /\
  exec ex_env [901] (lf_w lf_owner) lf_swap = Err (ESwap FeeCalculationFailure) /\
  bals (Ok (lf_w lf_owner)) [101; 102; 203] = [0; 5000; 10 ^ 9].
Proof. vm_compute. repeat split; reflexivity. Qed.
