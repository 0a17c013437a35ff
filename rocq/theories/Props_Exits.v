(** C100, C101: what pool tokens of a constant-price pool are redeemed for. *)
From Verif Require Import Ints Fees LinearCurve SwapCurve Codec Token Processor Api History Spec LedgerSpec TraceSpec
  LedgerExamples HistoryExamples ExitFacts.

(** C100, refuted.  The full claim is that a two-sided withdrawal pays the worth of the pool tokens
    burnt, up to rounding.  Here it pays exactly half of it: the pool holds token A only, half of
    the payment is due in token B, and what a vault lacks is not paid at all. *)
Theorem C100_worth_refuted : exists e signers w accounts n w' s p, env_ok e /\ reachable e w /\ signers_ok e signers /\
  exec e signers w (WithdrawAll accounts n 0 0) = Ok w' /\ pool_at w (nth 0 accounts 0) s /\ st_curve s = ConstantPrice p /\
  st_fees s = mk_fees 0 0 0 0 0 0 0 0 /\
  let S := shares w s in let m := S - shares w' s in let V := worth w s p in
  let paid := V - worth w' s p in
  m = n /\ 0 < m * V /\ paid * S = m * V / 2 /\ m * V mod 2 = 0.
Proof. exact redeem_half. Qed.
Print Assumptions C100_worth_refuted.

(** C100 otherwise.  The vaults pay exactly half of the worth of the [m] burnt pool tokens each, as
    far as they can; payment and [lack], what they could not pay, add up to the worth but for
    less than [p + 2] units of token A.  (Full statement: [lack = 0].) *)
Theorem C100_worth_partial : forall e signers w accounts n ma mb w' s p, env_ok e -> reachable e w -> signers_ok e signers ->
  exec e signers w (WithdrawAll accounts n ma mb) = Ok w' -> pool_at w (nth 0 accounts 0) s -> st_curve s = ConstantPrice p ->
  let A := balance w (st_token_a s) in let B := balance w (st_token_b s) in
  let S := shares w s in let m := S - shares w' s in let V := worth w s p in
  let x := A - balance w' (st_token_a s) in let y := B - balance w' (st_token_b s) in
  let lack := Z.max 0 (m * (V / 2) / S - A) + p * Z.max 0 (m * (V / 2) / (p * S) - B) in
  0 <= m <= n /\
  x = Z.min A (m * (V / 2) / S) /\ y = Z.min B (m * (V / 2) / (p * S)) /\
  (pool_value p x y + lack) * S <= m * V < (pool_value p x y + lack + p + 2) * S.
Proof. exact withdraw_all_worth. Qed.
Print Assumptions C100_worth_partial.

(** Price 3, vaults 7000 and 2000, worth 13000.  Half of the pool tokens, 5 percent of it charged:
    4.75 * 10^8 tokens, worth 6175, pay 3087 + 3 * 1029 = 6174.  After 1950 of the B are sold, the share of a
    twentieth of the pool tokens, 104 B, exceeds the 50 B left. *)
Example C100_case :
  let leave w n := exec ex_env [901] w (WithdrawAll [300; auth 300; 901; 403; 304; 301; 302; 111; 112; 303; TOKEN_PROGRAM_ID] n 0 0) in
  let w := run1 [901] ex_w2 (Swap [300; auth 300; 901; 111; 301; 302; 112; 403; 303; TOKEN_PROGRAM_ID] 6030 1) in
  bals (leave ex_w2 500000000) [301; 302; 403] = [3913; 971; 525000000] /\
  bals (Ok w) [301; 302; 403] = [13030; 50; 1009028832] /\
  bals (leave w 50000000) [301; 302; 403] = [12720; 0; 961528832].
Proof. vm_compute. repeat split; reflexivity. Qed.

(** C101, refuted.  The full claim is that redeeming all pool tokens empties the vaults; here half
    of the pool stays behind. *)
Theorem C101_empties_refuted : exists e signers w accounts n w' s p, env_ok e /\ reachable e w /\ signers_ok e signers /\
  exec e signers w (WithdrawAll accounts n 0 0) = Ok w' /\ pool_at w (nth 0 accounts 0) s /\ st_curve s = ConstantPrice p /\
  shares w' s = 0 /\ 0 < worth w s p /\ worth w' s p = worth w s p / 2.
Proof. exact redeem_all. Qed.
Print Assumptions C101_empties_refuted.

(** C101, what stays behind when the last pool tokens are redeemed for both tokens: half of the
    difference in value of the two vaults, rounded up to whole tokens.  (Full statement: nothing.) *)
Theorem C101_left_partial : forall e signers w accounts n ma mb w' s p, env_ok e -> reachable e w -> signers_ok e signers ->
  exec e signers w (WithdrawAll accounts n ma mb) = Ok w' -> pool_at w (nth 0 accounts 0) s -> st_curve s = ConstantPrice p ->
  shares w' s = 0 ->
  let A := balance w (st_token_a s) in let B := balance w (st_token_b s) in
  let A' := balance w' (st_token_a s) in let B' := balance w' (st_token_b s) in
  (p * B <= A -> A' = (A - p * B + 1) / 2 /\ B' = 0) /\
  (A <= p * B -> A' = 0 /\ B' = (p * B - A + 2 * p - 1) / (2 * p)).
Proof. exact withdraw_all_left. Qed.
Print Assumptions C101_left_partial.

(** C101.  What stays behind is anyone's: a user who has nothing deposits nothing, gets 10^9 pool
    tokens for it and takes the rest of the pool. *)
Theorem C101_stranger_refuted : exists e holder stranger w i w1 accounts w2 i2 w3 s p own,
  env_ok e /\ reachable e w /\ signers_ok e [holder] /\ signers_ok e [stranger] /\ holder <> stranger /\
  pool_at w (named_pool i) s /\ st_curve s = ConstantPrice p /\
  exec e [holder] w i = Ok w1 /\ shares w1 s = 0 /\
  exec e [stranger] w1 (DepositSingle accounts 0 0) = Ok w2 /\
  exec e [stranger] w2 i2 = Ok w3 /\
  (exists t, token_at w own t /\ t_owner t = stranger /\ t_amount t = 0) /\
  0 < worth w1 s p /\ worth w3 s p = 0 /\ balance w3 own = worth w1 s p.
Proof. exact stranger_takes. Qed.
Print Assumptions C101_stranger_refuted.

(** 9000 A and no B at price 3: 4500 stay behind; the stranger's account is 113. *)
Example C101_case :
  bals (Ok exit_w1) [301; 302; 403; 304] = [9000; 0; 1000000000; 1000000000] /\
  bals (Ok exit_w2) [301; 302; 403; 304; 111; 112] = [4500; 0; 0; 0; 4500; 0] /\
  bals (Ok exit_w3) [301; 302; 403; 305] = [4500; 0; 1000000000; 1000000000] /\
  bals (Ok exit_w4) [301; 302; 403; 305; 113] = [0; 0; 0; 0; 4500] /\
  (7000 - 3 * 2000 + 1) / 2 = 500 /\
  bals (exec ex_env [900] (upd (upd ex_w2 304 (tok 403 901 0)) 303 (tok 403 900 (10 ^ 9)))
         (WithdrawAll [300; auth 300; 900; 403; 303; 301; 302; 111; 112; 303; TOKEN_PROGRAM_ID] (10 ^ 9) 0 0))
    [301; 302; 403] = [500; 0; 0].
Proof. vm_compute. repeat split; reflexivity. Qed.
