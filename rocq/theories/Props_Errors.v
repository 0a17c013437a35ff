(** The errors of failed instructions. *)
From Verif Require Import Ints Tactics Fees LinearCurve SwapCurve Codec Token Processor Api History
  Spec LedgerSpec CallSpec ErrorSpec ErrorCodes LedgerExamples ErrorProps ErrorCreate.

(** C69.  Errors mean what they say: when an instruction on a pool fails, the fact
    that [ErrorSpec] attaches to the returned error holds - which account was wrong,
    which quote was empty, over its limit or too large, which token transfer was
    refused - and errors for which there is no such fact are never returned. *)
Theorem C69_swap_error : forall e signers w accounts ain mout err s, env_ok e -> reachable e w ->
  pool_at w (nth 0 accounts 0) s -> exec e signers w (Swap accounts ain mout) = Err err ->
  swap_fault e signers w s accounts ain mout err.
Proof.
  intros e signers w accounts ain mout err s He R Hp.
  exact (swap_error e signers w accounts ain mout err s Hp (proj2 (reachable_program _ _ _ _ He R Hp))).
Qed.
Print Assumptions C69_swap_error.

Theorem C69_deposit_all_error : forall e signers w accounts n ma mb err s, env_ok e -> reachable e w ->
  pool_at w (nth 0 accounts 0) s -> exec e signers w (DepositAll accounts n ma mb) = Err err ->
  deposit_all_fault e signers w s accounts n ma mb err.
Proof.
  intros e signers w accounts n ma mb err s He R Hp. destruct (reachable_program _ _ _ _ He R Hp) as [W T].
  exact (deposit_all_error e signers w accounts n ma mb err s W Hp T).
Qed.
Print Assumptions C69_deposit_all_error.

Theorem C69_withdraw_all_error : forall e signers w accounts n ma mb err s, env_ok e -> reachable e w ->
  pool_at w (nth 0 accounts 0) s -> exec e signers w (WithdrawAll accounts n ma mb) = Err err ->
  withdraw_all_fault e signers w s accounts n ma mb err.
Proof.
  intros e signers w accounts n ma mb err s He R Hp. destruct (reachable_program _ _ _ _ He R Hp) as [W T].
  exact (withdraw_all_error e signers w accounts n ma mb err s W Hp T).
Qed.
Print Assumptions C69_withdraw_all_error.

Theorem C69_deposit_single_error : forall e signers w accounts n mp err s, env_ok e -> reachable e w ->
  pool_at w (nth 0 accounts 0) s -> exec e signers w (DepositSingle accounts n mp) = Err err ->
  deposit_single_fault e signers w s accounts n mp err.
Proof.
  intros e signers w accounts n mp err s He R Hp. destruct (reachable_program _ _ _ _ He R Hp) as [W T].
  exact (deposit_single_error e signers w accounts n mp err s W Hp T).
Qed.
Print Assumptions C69_deposit_single_error.

Theorem C69_withdraw_single_error : forall e signers w accounts n mp err s, env_ok e -> reachable e w ->
  pool_at w (nth 0 accounts 0) s -> exec e signers w (WithdrawSingle accounts n mp) = Err err ->
  withdraw_single_fault e signers w s accounts n mp err.
Proof.
  intros e signers w accounts n mp err s He R Hp. destruct (reachable_program _ _ _ _ He R Hp) as [W T].
  exact (withdraw_single_error e signers w accounts n mp err s W Hp T).
Qed.
Print Assumptions C69_withdraw_single_error.

Theorem C69_creation_error : forall e signers w i err, env_ok e -> creates i ->
  exec e signers w i = Err err -> create_fault e signers w i err.
Proof. exact create_error. Qed.
Print Assumptions C69_creation_error.

(** The other instructions on an account whose bytes are not those of a pool. *)
Theorem C69_not_a_pool : forall e signers w i err, ~ creates i ->
  (forall s, swap_unpack (raw_of (a_data (w (named_pool i)))) <> Ok s) ->
  exec e signers w i = Err err -> no_pool_fault signers w i err.
Proof. exact no_pool_error. Qed.
Print Assumptions C69_not_a_pool.

Example C69_swap_case :
  let try accounts x m := exec ex_env [901] ex_w2 (Swap accounts x m) in
  let good := [300; auth 300; 901; 111; 301; 302; 112; 403; 303; TOKEN_PROGRAM_ID] in
  bals (try good 1000 323) [302] = [1677] /\
  try good 1000 324 = Err (ESwap ExceededSlippage) /\
  try good 1 0 = Err (ESwap ZeroTradingTokens) /\
  try (firstn 9 good) 1000 0 = Err ENotEnoughAccountKeys /\
  exec ex_env [900] ex_w2 (Swap good 1000 0) = Err EMissingRequiredSignature /\
  try [300; auth 300; 901; 111; 301; 301; 112; 403; 303; TOKEN_PROGRAM_ID] 10 0 = Err (ESwap InvalidInput) /\
  try [300; auth 100; 901; 111; 301; 302; 112; 403; 303; TOKEN_PROGRAM_ID] 10 0 = Err (ESwap InvalidProgramAddress) /\
  try [300; auth 300; 901; 111; 101; 302; 112; 403; 303; TOKEN_PROGRAM_ID] 10 0 = Err (ESwap IncorrectSwapAccount) /\
  try [300; auth 300; 901; 111; 301; 302; 112; 203; 303; TOKEN_PROGRAM_ID] 10 0 = Err (ESwap IncorrectPoolMint) /\
  try [300; auth 300; 901; 111; 301; 302; 112; 403; 304; TOKEN_PROGRAM_ID] 10 0 = Err (ESwap IncorrectFeeAccount) /\
  try [300; auth 300; 901; 111; 301; 302; 112; 403; 303; 7] 10 0 = Err (ESwap IncorrectTokenProgramId) /\
  try [301; auth 300; 901; 111; 301; 302; 112; 403; 303; TOKEN_PROGRAM_ID] 10 0 = Err EIncorrectProgramId.
Proof. vm_compute. repeat split; reflexivity. Qed.

Example C69_liquidity_case :
  let deposit p x a b := exec ex_env [901] ex_w2
    (DepositAll [p; auth p; 901; 111; 112; p + 1; p + 2; p + 103; p + 4; TOKEN_PROGRAM_ID] x a b) in
  let withdraw x a := exec ex_env [901] ex_w2
    (WithdrawAll [300; auth 300; 901; 403; 304; 301; 302; 111; 112; 303; TOKEN_PROGRAM_ID] x a 0) in
  let deposit1 k x m := exec ex_env [901] ex_w2
    (DepositSingle [300; auth 300; 901; k; 301; 302; 403; 304; TOKEN_PROGRAM_ID] x m) in
  let withdraw1 k x m := exec ex_env [901] ex_w2
    (WithdrawSingle [300; auth 300; 901; 403; 304; 301; 302; k; 303; TOKEN_PROGRAM_ID] x m) in
  deposit 300 100000000 0 0 = Err (ESwap ExceededSlippage) /\
  deposit 300 1 1000000 1000000 = Err (ESwap ZeroTradingTokens) /\
  deposit 300 90000000000 (2 ^ 62) (2 ^ 62) = Err EToken /\
  deposit 100 1000000 1000000 1000000 = Err (ESwap UnsupportedCurveOperation) /\
  withdraw 100000000 100000 = Err (ESwap ExceededSlippage) /\
  withdraw 1 0 = Err (ESwap ZeroTradingTokens) /\
  withdraw 2000000000 0 = Err EToken /\
  withdraw (2 ^ 64) 0 = Err ERuntime /\
  deposit1 111 100 100000000000 = Err (ESwap ExceededSlippage) /\
  deposit1 304 100 0 = Err (ESwap IncorrectSwapAccount) /\
  deposit1 301 100 0 = Err (ESwap InvalidInput) /\
  deposit1 111 10000000 0 = Err EToken /\
  withdraw1 111 100 1 = Err (ESwap ExceededSlippage) /\
  withdraw1 111 0 1 = Err (ESwap ZeroTradingTokens).
Proof. vm_compute. repeat split; reflexivity. Qed.

Example C69_creation_case :
  exec ex_env [100] ex_w1 ex_init1 = Err (ESwap AlreadyInUse) /\
  exec ex_env [300] ex_w1 (InitConstantPrice [300; auth 300; 301; 301; 403; 303; 304; TOKEN_PROGRAM_ID] ex_fees 3)
    = Err (ESwap RepeatedMint) /\
  exec ex_env [300] ex_w1 (InitConstantPrice [300; auth 300; 301; 302; 403; 303; 304; TOKEN_PROGRAM_ID] ex_fees 0)
    = Err (ESwap InvalidCurve) /\
  exec ex_env [300] ex_w1 (InitConstantPrice [300; auth 300; 301; 302; 403; 303; 111; TOKEN_PROGRAM_ID] ex_fees 3)
    = Err EToken /\
  exec ex_env [901] ex_w0 (Swap [100; auth 100; 901; 111; 101; 102; 112; 203; 103; TOKEN_PROGRAM_ID] 1000 1)
    = Err EUninitializedAccount.
Proof. vm_compute. repeat split; reflexivity. Qed.

(** C70.  The program's own errors leave it as 28 distinct numbers, and a client
    that decodes such a number gets back the error. *)
Theorem C70_error_numbers : forall c d, 0 <= error_code c <= 27 /\
  (error_code c = error_code d -> c = d) /\ error_from_code (error_code c) = Some c /\
  (forall n, error_from_code n = Some c -> n = error_code c).
Proof.
  intros c d. split; [exact (code_range c) |]. split; [| split; [exact (code_decode c) | exact (fun n => decode_code n c)]].
  intros H. apply (f_equal error_from_code) in H. rewrite !code_decode in H. congruence.
Qed.
Print Assumptions C70_error_numbers.

Example C70_case : map error_code [AlreadyInUse; InvalidSupply; ExceededSlippage; UnsupportedCurveOperation] = [0; 7; 16; 27] /\
  error_from_code 20 = Some ZeroTradingTokens /\ error_from_code 28 = None.
Proof. repeat split; reflexivity. Qed.

(** C71.  error.rs explains [InvalidSupply] as "Pool token mint has a non-zero
    supply".  That is what it means when a constant-price pool is created ... *)
Theorem C71_invalid_supply_partial : forall e signers w accounts f p, env_ok e ->
  exec e signers w (InitConstantPrice accounts f p) = Err (ESwap InvalidSupply) ->
  exists m, a_data (w (nth 4 accounts 0)) = DMint m /\ m_supply m <> 0.
Proof. exact invalid_supply_price. Qed.
Print Assumptions C71_invalid_supply_partial.

(** ... but the creation of a linear pool also returns it for a vault A that is not
    empty, with the mint's supply at zero. *)
Theorem C71_invalid_supply_refuted : exists e signers w accounts sn sd pn pd m, env_ok e /\
  exec e signers w (InitLinearPrice accounts sn sd pn pd) = Err (ESwap InvalidSupply) /\
  a_data (w (nth 4 accounts 0)) = DMint m /\ m_supply m = 0.
Proof.
  exists ex_env, [300], ex_w0, [300; auth 300; 301; 302; 403; 303; 304; TOKEN_PROGRAM_ID], 1, 2, 50, 1.
  eexists. split; [exact ex_env_ok |]. vm_compute. repeat split; reflexivity.
Qed.
Print Assumptions C71_invalid_supply_refuted.
