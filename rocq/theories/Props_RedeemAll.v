(** C116: redeeming all pool tokens of a constant-price pool at once. *)
From Verif Require Import Ints Fees LinearCurve SwapCurve Codec Token Processor Api History Spec LedgerSpec LiveSpec TraceSpec
  LedgerExamples RedeemAll.

(** C116, refuted.  The full claim, checked at the end of each run of the fuzz test, is that whoever
    holds all pool tokens can redeem them for what is in the pool.  Here no number of pool tokens
    can be redeemed for both tokens, although the pool is worth 1999999. *)
Theorem C116_always_refuted : exists e signers w pool authority s user source dest_a dest_b p,
  env_ok e /\ reachable e w /\ signers_ok e signers /\ pool_at w pool s /\
  find_pda e pool = Some (authority, st_bump_seed s) /\ st_curve s = ConstantPrice p /\ In user signers /\
  wallet w source user (st_pool_mint s) (shares w s) /\ 0 < shares w s /\
  accepts w dest_a (st_token_a_mint s) (balance w (st_token_a s)) /\
  accepts w dest_b (st_token_b_mint s) (balance w (st_token_b s)) /\ worth w s p = 1999999 /\
  forall rest n, ~ exists w', exec e signers w (WithdrawAll
    (pool :: authority :: user :: st_pool_mint s :: source :: st_token_a s :: st_token_b s
      :: dest_a :: dest_b :: st_pool_fee_account s :: TOKEN_PROGRAM_ID :: rest) n 0 0) = Ok w'.
Proof. exact redeem_stuck. Qed.
Print Assumptions C116_always_refuted.

(** C116, exactly when it works for a holder who is not charged: always, except that half of the
    worth must fit into 64 bits, and except for a single token in a side that half of the worth
    does not reach.  (Full statement: always.) *)
Theorem C116_when_partial : forall e signers w pool authority s user source dest_a dest_b rest ma mb p,
  env_ok e -> reachable e w -> signers_ok e signers ->
  pool_at w pool s -> find_pda e pool = Some (authority, st_bump_seed s) -> st_curve s = ConstantPrice p ->
  is_u64 ma -> is_u64 mb -> In user signers -> single_signer w user -> single_signer w authority ->
  thawed w (st_token_a s) -> thawed w (st_token_b s) ->
  wallet w source user (st_pool_mint s) (shares w s) -> (forall t, token_at w source t -> t_native t = false) ->
  st_pool_mint s <> st_token_a_mint s -> st_pool_mint s <> st_token_b_mint s ->
  st_pool_fee_account s = source \/ owner_withdraw_fee_num (st_fees s) = 0 ->
  let accounts := pool :: authority :: user :: st_pool_mint s :: source :: st_token_a s :: st_token_b s
                    :: dest_a :: dest_b :: st_pool_fee_account s :: TOKEN_PROGRAM_ID :: rest in
  let A := balance w (st_token_a s) in let B := balance w (st_token_b s) in
  let half := worth w s p / 2 in
  (exists w', exec e signers w (WithdrawAll accounts (shares w s) ma mb) = Ok w') <->
  dest_a <> st_token_a s /\ dest_b <> st_token_b s /\ 0 < shares w s /\ half <= u64_max /\
  ~ (A = 1 /\ B = 0) /\ ~ (B = 1 /\ A < p) /\ ma <= Z.min A half /\ mb <= Z.min B (half / p) /\
  (0 < A -> accepts w dest_a (st_token_a_mint s) (Z.min A half)) /\
  (0 < B -> accepts w dest_b (st_token_b_mint s) (Z.min B (half / p))).
Proof. exact redeem_all_when. Qed.
Print Assumptions C116_when_partial.

(** C116 for any number [n] of pool tokens, part or all of them, and any holder: what is left of [n]
    after the withdrawal fee must buy at least one token of each side that has any.  (Full statement:
    always for [n] = all.) *)
Theorem C116_charged_partial : forall e signers w pool authority s user source dest_a dest_b rest n ma mb x p,
  env_ok e -> reachable e w -> signers_ok e signers ->
  pool_at w pool s -> find_pda e pool = Some (authority, st_bump_seed s) -> st_curve s = ConstantPrice p ->
  is_u64 n -> is_u64 ma -> is_u64 mb -> In user signers -> single_signer w user -> single_signer w authority ->
  thawed w (st_token_a s) -> thawed w (st_token_b s) ->
  wallet w source user (st_pool_mint s) x -> (forall t, token_at w source t -> t_native t = false) ->
  st_pool_mint s <> st_token_a_mint s -> st_pool_mint s <> st_token_b_mint s ->
  let accounts := pool :: authority :: user :: st_pool_mint s :: source :: st_token_a s :: st_token_b s
                    :: dest_a :: dest_b :: st_pool_fee_account s :: TOKEN_PROGRAM_ID :: rest in
  let A := balance w (st_token_a s) in let B := balance w (st_token_b s) in
  let num := owner_withdraw_fee_num (st_fees s) in let den := owner_withdraw_fee_den (st_fees s) in
  let fee := if (st_pool_fee_account s =? source) || (num =? 0) || (n =? 0) then 0 else Z.max 1 (n * num / den) in
  let a := Z.min A ((n - fee) * (worth w s p / 2) / shares w s) in
  let b := Z.min B ((n - fee) * (worth w s p / 2) / (p * shares w s)) in
  (exists w', exec e signers w (WithdrawAll accounts n ma mb) = Ok w') <->
  dest_a <> st_token_a s /\ dest_b <> st_token_b s /\ n <= x /\ 0 < shares w s /\ n - fee <= shares w s /\
  (n - fee) * (worth w s p / 2) / shares w s <= u64_max /\
  (0 < A -> 0 < a) /\ (0 < B -> 0 < b) /\ ma <= a /\ mb <= b /\
  (0 < fee -> accepts w (st_pool_fee_account s) (st_pool_mint s) fee) /\
  (0 < A -> accepts w dest_a (st_token_a_mint s) a) /\ (0 < B -> accepts w dest_b (st_token_b_mint s) b).
Proof. exact redeem_some_when. Qed.
Print Assumptions C116_charged_partial.

(** C116.  In the two exceptional states nobody can redeem any number of pool tokens for both tokens. *)
Theorem C116_none : forall e signers w accounts n ma mb s p, env_ok e -> reachable e w -> signers_ok e signers ->
  pool_at w (nth 0 accounts 0) s -> st_curve s = ConstantPrice p ->
  let A := balance w (st_token_a s) in let B := balance w (st_token_b s) in
  A = 1 /\ B = 0 \/ B = 1 /\ A < p ->
  ~ exists w', exec e signers w (WithdrawAll accounts n ma mb) = Ok w'.
Proof. exact redeem_none. Qed.
Print Assumptions C116_none.

(** At a price of 1000000, with 999999 tokens A: one token B blocks the instruction, two do not.
    One token at a time, all of the first pool can be taken out. *)
Example C116_case :
  let one x d n := WithdrawSingle [300; auth 300; 901; 403; 304; 301; 302; d; 303; TOKEN_PROGRAM_ID] n x in
  exec ex_env [901] (rd_w1 1) (WithdrawAll rd_accounts (10 ^ 9) 0 0) = Err (ESwap ZeroTradingTokens) /\
  bals (exec ex_env [901] (rd_w1 2) (WithdrawAll rd_accounts (10 ^ 9) 0 0)) [301; 302; 111; 112; 403] = [0; 1; 999999; 1; 0] /\
  bals (exec ex_env [901] (rd_w1 1) (one (10 ^ 9) 111 999999)) [301; 302; 111; 112; 403] = [0; 1; 999999; 0; 500000250] /\
  bals (exec ex_env [901] (run1 [901] (rd_w1 1) (one (10 ^ 9) 111 999999)) (one (10 ^ 9) 112 1)) [301; 302; 111; 112; 403]
    = [0; 0; 999999; 1; 0].
Proof. vm_compute. repeat split; reflexivity. Qed.

(** 999999 tokens A and one token B at a price of 999999: the whole is redeemed without a fee; a
    withdrawal fee of a tenth leaves less than a token B and blocks it.  With two tokens B it pays, and
    the owner of the fee account has the tenth. *)
Example C116_charged_case :
  let all num b := exec ex_env [901] (rc_w1 num b) (WithdrawAll rd_accounts (10 ^ 9) 0 0) in
  let view r := bals r [301; 302; 111; 112; 403; 303; 304] in
  view (all 0 1) = [0; 0; 999999; 1; 0; 0; 0] /\ all 1 1 = Err (ESwap ZeroTradingTokens) /\
  view (all 1 2) = [0; 1; 999999; 1; 10 ^ 8; 10 ^ 8; 0].
Proof. vm_compute. repeat split; reflexivity. Qed.
