(** Whole-ledger economics: collateral, value per pool token, limits. *)
From Verif Require Import Ints Tactics DfsPrecise Fees LinearCurve ConstantPrice SwapCurve Codec Token Processor Api History
  Spec LedgerSpec TraceSpec LimitSpec LinearRound LinearHistory LinearBacked EffectFacts HistoryFacts LedgerExamples HistoryExamples
  LedgerLinear LedgerPrice LimitFacts.

(** C66.  Whatever happens on the chain after a linear pool was created (swaps by
    anybody, gifts, other instructions and programs): the tokens missing from its
    vault are backed by the collateral in the other vault, up to a single unit, if
    the parameters have an exact decimal image and no price exceeds 10^17. *)
Theorem C66_ledger_backing : forall e w signers accounts sn sd pn pd w1 evs w2 s, env_ok e -> reachable e w ->
  step e w (Instruction signers (InitLinearPrice accounts sn sd pn pd)) w1 -> pool_at w1 (nth 0 accounts 0) s ->
  history e w1 evs w2 ->
  let c := mk_linear sn sd pn pd in
  let va := st_token_a s in let vb := st_token_b s in
  decimal c -> price_num_at c (balance w1 vb * ONE) <= 10 ^ 17 * (slope_den c * price_den c * ONE) ->
  cost_num c (Z.max 0 (balance w1 vb - balance w2 vb)) <= cost_den c * (balance w2 va + 1).
Proof. exact ledger_backed. Qed.
Print Assumptions C66_ledger_backing.

(** C66, exactly: as long as the vault is never emptied, nothing at all is missing,
    even for tokens that swaps took out and gifts replaced. *)
Theorem C66_ledger_backing_exact : forall e w signers accounts sn sd pn pd w1 l w2 s, env_ok e -> reachable e w ->
  step e w (Instruction signers (InitLinearPrice accounts sn sd pn pd)) w1 -> pool_at w1 (nth 0 accounts 0) s ->
  trace e w1 l w2 ->
  let c := mk_linear sn sd pn pd in
  let va := st_token_a s in let vb := st_token_b s in
  decimal c -> Forall (fun p => 0 < balance (snd p) vb) l ->
  cost_num c (Z.max 0 (drawn (nth 0 accounts 0) vb w1 l)) <= cost_den c * balance w2 va.
Proof. exact ledger_backed_exact. Qed.
Print Assumptions C66_ledger_backing_exact.

(** Pool 100 (slope 1/2, price 50): 1000 collateral buy 18 tokens, whose cost is
    981; returning 5 leaves 749, the cost of the remaining 13 is 692.25. *)
Example C66_case :
  let c := mk_linear 1 2 50 1 in
  let buy := Swap [100; auth 100; 901; 111; 101; 102; 112; 203; 103; TOKEN_PROGRAM_ID] 1000 1 in
  let sell := Swap [100; auth 100; 901; 112; 102; 101; 111; 203; 103; TOKEN_PROGRAM_ID] 5 1 in
  let w3 := run1 [901] ex_w2 buy in
  bals (Ok ex_w2) [101; 102] = [0; 5000] /\ bals (Ok w3) [101; 102] = [1000; 4982] /\
  bals (exec ex_env [901] w3 sell) [101; 102] = [749; 4987] /\
  cost_num c 18 = cost_den c * 981 /\ 4 * cost_num c 13 = cost_den c * 2769.
Proof. vm_compute. repeat split; reflexivity. Qed.

(** C67.  A constant-price pool without trading fees: whatever happens on the chain
    in one step, except a two-sided deposit, the value behind each pool token does
    not fall. *)
Theorem C67_value_per_token : forall e w ev w' k s p, env_ok e -> reachable e w -> step e w ev w' ->
  pool_at w k s -> st_curve s = ConstantPrice p ->
  trade_fee_num (st_fees s) = 0 -> owner_trade_fee_num (st_fees s) = 0 -> 0 < shares w s ->
  (forall signers accounts n ma mb, ev = Instruction signers (DepositAll accounts n ma mb) -> nth 0 accounts 0 <> k) ->
  worth w s p * shares w' s <= worth w' s p * shares w s.
Proof. intros e w ev w' k s p He R. exact (price_step e w ev w' k s p He (reachable_inv _ _ He R)). Qed.
Print Assumptions C67_value_per_token.

(** C67 over whole histories in which pool tokens remain in existence. *)
Theorem C67_value_per_token_history : forall e w l w' k s p, env_ok e -> reachable e w -> trace e w l w' ->
  pool_at w k s -> st_curve s = ConstantPrice p ->
  trade_fee_num (st_fees s) = 0 -> owner_trade_fee_num (st_fees s) = 0 -> 0 < shares w s ->
  Forall (fun x => 0 < shares (snd x) s) l ->
  (forall signers accounts n ma mb w1, In (Instruction signers (DepositAll accounts n ma mb), w1) l -> nth 0 accounts 0 <> k) ->
  worth w s p * shares w' s <= worth w' s p * shares w s.
Proof. intros e w l w' k s p He R. exact (price_trace e w l w' k s p He (reachable_inv _ _ He R)). Qed.
Print Assumptions C67_value_per_token_history.

(** C67, two-sided deposits: the loss is below the value unit over the supply. *)
Theorem C67_two_sided_deposit : forall e signers w accounts n ma mb w' s p, env_ok e -> reachable e w ->
  exec e signers w (DepositAll accounts n ma mb) = Ok w' -> pool_at w (nth 0 accounts 0) s -> st_curve s = ConstantPrice p ->
  0 < shares w s ->
  worth w s p * shares w' s <= worth w' s p * shares w s + (shares w' s - shares w s) /\ shares w s <= shares w' s.
Proof. intros e signers w accounts n ma mb w' s p He R. exact (deposit_all_price e signers w accounts n ma mb w' s p He (reachable_inv _ _ He R)). Qed.
Print Assumptions C67_two_sided_deposit.

(** C67, swaps with any fees: the pool's value does not fall, and the value per
    token falls at most by one of the pool tokens minted for the owner. *)
Theorem C67_swap : forall e signers w accounts ain mout w' s p, env_ok e -> reachable e w ->
  exec e signers w (Swap accounts ain mout) = Ok w' -> pool_at w (nth 0 accounts 0) s -> st_curve s = ConstantPrice p ->
  let minted := shares w' s - shares w s in
  0 <= minted /\ (owner_trade_fee_num (st_fees s) = 0 -> minted = 0) /\ worth w s p <= worth w' s p /\
  worth w s p * (shares w s + Z.max 0 (minted - 1)) <= worth w' s p * shares w s.
Proof. intros e signers w accounts ain mout w' s p He R. exact (swap_price e signers w accounts ain mout w' s p He (reachable_inv _ _ He R)). Qed.
Print Assumptions C67_swap.

(** Pool 300 (price 3) is worth 13000; swapping 1000 with 3% of fees adds 30, less
    a rest that is not taken, and mints 0.15% of the supply for the owner. *)
Example C67_case :
  let swap := Swap [300; auth 300; 901; 111; 301; 302; 112; 403; 303; TOKEN_PROGRAM_ID] 1000 2 in
  bals (Ok ex_w2) [301; 302; 403] = [7000; 2000; 1000000000] /\
  bals (exec ex_env [901] ex_w2 swap) [301; 302; 403] = [7999; 1677; 1001458174].
Proof. vm_compute. split; reflexivity. Qed.

(** C68.  The limits given by the caller only limit.  The same request with other
    limits has exactly the same effect, or fails with [ExceededSlippage]; and it
    succeeds whenever the limits are no stricter. *)
Theorem C68_limits_only_limit : forall e signers w i i' w', relimited i i' -> exec e signers w i = Ok w' ->
  exec e signers w i' = Ok w' \/ ~ loosened i i' /\ exec e signers w i' = Err (ESwap ExceededSlippage).
Proof. exact limits_only_limit. Qed.
Print Assumptions C68_limits_only_limit.

Theorem C68_looser_limits : forall e signers w i i' w', relimited i i' -> loosened i i' -> exec e signers w i = Ok w' ->
  exec e signers w i' = Ok w'.
Proof. exact loosened_runs. Qed.
Print Assumptions C68_looser_limits.

(** The swap of [C67_case] pays 323: that limit is met, one more is not. *)
Example C68_case :
  let swap m := exec ex_env [901] ex_w2 (Swap [300; auth 300; 901; 111; 301; 302; 112; 403; 303; TOKEN_PROGRAM_ID] 1000 m) in
  bals (swap 323) [301; 302; 403] = bals (swap 0) [301; 302; 403] /\ bals (swap 0) [302] = [1677] /\
  swap 324 = Err (ESwap ExceededSlippage).
Proof. vm_compute. repeat split; reflexivity. Qed.
