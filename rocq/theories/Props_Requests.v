(** C98: what can go wrong with a request that names the right accounts. *)
From Verif Require Import Ints Fees LinearCurve SwapCurve Codec Token Processor Api History Spec LedgerSpec CallSpec LiveSpec
  RequestSpec LinearProps HistoryFacts LedgerExamples HistoryExamples LiveExamples RequestFacts.

(** C98.  A trade that names the right accounts, signed by the trader, either goes through or fails
    for one of four reasons: the curve has no quote, the quote misses the limit, somebody lacks
    tokens or room for them, or (linear pools only) the square root aborts. *)
Theorem C98_swap : forall e signers w pool authority s user source ssrc sdst dest rest ain mout x,
  env_ok e -> reachable e w -> signers_ok e signers ->
  pool_at w pool s -> find_pda e pool = Some (authority, st_bump_seed s) ->
  is_u64 ain -> is_u64 mout -> In user signers -> single_signer w user -> single_signer w authority ->
  (ssrc = st_token_a s /\ sdst = st_token_b s \/ ssrc = st_token_b s /\ sdst = st_token_a s) ->
  thawed w ssrc -> thawed w sdst ->
  wallet w source user (vault_mint_of s ssrc) x -> payee w dest (vault_mint_of s sdst) -> dest <> sdst ->
  feeless (st_fees s) \/
    st_pool_mint s <> st_token_a_mint s /\ st_pool_mint s <> st_token_b_mint s /\
    payee w (st_pool_fee_account s) (st_pool_mint s) /\ (forall t, token_at w (st_pool_fee_account s) t -> t_native t = false) ->
  let accounts := pool :: authority :: user :: source :: ssrc :: sdst :: dest
                    :: st_pool_mint s :: st_pool_fee_account s :: TOKEN_PROGRAM_ID :: rest in
  let d := if ssrc =? st_token_a s then AtoB else BtoA in
  let quote := curve_swap (st_curve s) ain (balance w ssrc) (balance w sdst) d (st_fees s) in
  match exec e signers w (Swap accounts ain mout) with
  | Ok _ => True
  | Err (ESwap ZeroTradingTokens) => quote = Non
  | Err (ESwap ExceededSlippage) => exists r, quote = Val r /\ destination_amount_swapped r < mout
  | Err EToken => exists r, quote = Val r /\ mout <= destination_amount_swapped r /\
      (x < source_amount_swapped r \/
       u64_max < balance w ssrc + source_amount_swapped r \/ u64_max < balance w dest + destination_amount_swapped r \/
       exists minted, 0 < minted /\
         curve_withdraw_single (st_curve s) (owner_fee r)
           (side_a d (new_swap_source_amount r) (new_swap_destination_amount r))
           (side_b d (new_swap_source_amount r) (new_swap_destination_amount r))
           (supply w (st_pool_mint s)) d (st_fees s) = Val minted /\
         (u64_max < balance w (st_pool_fee_account s) + minted \/ u64_max < supply w (st_pool_mint s) + minted))
  | Err EPanic => exists l k, st_curve s = LinearPrice l /\ 1 <= k /\
      (2 ^ 64 - 1) * 4 ^ k < disc l (balance w (st_token_a s)) < 2 ^ 64 * 4 ^ k
  | Err _ => False
  end.
Proof. exact swap_request. Qed.
Print Assumptions C98_swap.

(** C98 for two-sided deposits. *)
Theorem C98_deposit : forall e signers w pool authority s user source_a source_b dest rest n ma mb xa xb,
  env_ok e -> reachable e w -> signers_ok e signers ->
  pool_at w pool s -> find_pda e pool = Some (authority, st_bump_seed s) ->
  is_u64 n -> is_u64 ma -> is_u64 mb -> In user signers -> single_signer w user -> single_signer w authority ->
  thawed w (st_token_a s) -> thawed w (st_token_b s) ->
  wallet w source_a user (st_token_a_mint s) xa -> wallet w source_b user (st_token_b_mint s) xb ->
  payee w dest (st_pool_mint s) -> (forall t, token_at w dest t -> t_native t = false) ->
  st_pool_mint s <> st_token_a_mint s -> st_pool_mint s <> st_token_b_mint s ->
  let accounts := pool :: authority :: user :: source_a :: source_b :: st_token_a s :: st_token_b s
                    :: st_pool_mint s :: dest :: TOKEN_PROGRAM_ID :: rest in
  let bal_a := balance w (st_token_a s) in
  let bal_b := balance w (st_token_b s) in
  let sup := supply w (st_pool_mint s) in
  let minted := if sup =? 0 then 10 ^ 9 else n in
  let outstanding := if sup =? 0 then 10 ^ 9 else sup in
  let quote := pool_tokens_to_trading_tokens (st_curve s) minted outstanding bal_a bal_b Ceiling in
  match exec e signers w (DepositAll accounts n ma mb) with
  | Ok _ => True
  | Err (ESwap UnsupportedCurveOperation) => exists l, st_curve s = LinearPrice l
  | Err (ESwap ZeroTradingTokens) => quote = Non \/ exists a b, quote = Val (a, b) /\ (a = 0 \/ b = 0)
  | Err (ESwap ExceededSlippage) => exists a b, quote = Val (a, b) /\ (ma < a \/ mb < b)
  | Err (ESwap ConversionFailure) => exists a b, quote = Val (a, b) /\ (u64_max < a \/ u64_max < b)
  | Err EToken => exists a b, quote = Val (a, b) /\ a <= ma /\ b <= mb /\
      (xa < a \/ xb < b \/ u64_max < bal_a + a \/ u64_max < bal_b + b \/
       u64_max < balance w dest + minted \/ u64_max < sup + minted)
  | Err _ => False
  end.
Proof. exact deposit_all_request. Qed.
Print Assumptions C98_deposit.

(** C98 for two-sided withdrawals: the charge can always be computed and deducted, and nothing
    aborts. *)
Theorem C98_withdraw : forall e signers w pool authority s user source dest_a dest_b rest n ma mb x,
  env_ok e -> reachable e w -> signers_ok e signers ->
  pool_at w pool s -> find_pda e pool = Some (authority, st_bump_seed s) ->
  is_u64 n -> is_u64 ma -> is_u64 mb -> In user signers -> single_signer w user -> single_signer w authority ->
  thawed w (st_token_a s) -> thawed w (st_token_b s) ->
  wallet w source user (st_pool_mint s) x -> (forall t, token_at w source t -> t_native t = false) ->
  payee w dest_a (st_token_a_mint s) -> payee w dest_b (st_token_b_mint s) ->
  dest_a <> st_token_a s -> dest_b <> st_token_b s -> payee w (st_pool_fee_account s) (st_pool_mint s) ->
  st_pool_mint s <> st_token_a_mint s -> st_pool_mint s <> st_token_b_mint s ->
  let accounts := pool :: authority :: user :: st_pool_mint s :: source :: st_token_a s :: st_token_b s
                    :: dest_a :: dest_b :: st_pool_fee_account s :: TOKEN_PROGRAM_ID :: rest in
  let bal_a := balance w (st_token_a s) in
  let bal_b := balance w (st_token_b s) in
  let sup := supply w (st_pool_mint s) in
  let charge := exit_charge s source n in
  let quote := pool_tokens_to_trading_tokens (st_curve s) (n - charge) sup bal_a bal_b Floor in
  match exec e signers w (WithdrawAll accounts n ma mb) with
  | Ok _ => True
  | Err (ESwap ZeroTradingTokens) => quote = Non \/
      exists a b, quote = Val (a, b) /\ (a = 0 /\ bal_a <> 0 \/ b = 0 /\ bal_b <> 0)
  | Err (ESwap ExceededSlippage) => exists a b, quote = Val (a, b) /\ (Z.min bal_a a < ma \/ Z.min bal_b b < mb)
  | Err (ESwap ConversionFailure) => exists a b, quote = Val (a, b) /\ (u64_max < a \/ u64_max < b)
  | Err EToken => exists a b, quote = Val (a, b) /\ ma <= Z.min bal_a a /\ mb <= Z.min bal_b b /\
      (x < n \/ sup < n - charge \/ u64_max < balance w (st_pool_fee_account s) + charge \/
       u64_max < balance w dest_a + Z.min bal_a a \/ u64_max < balance w dest_b + Z.min bal_b b)
  | Err _ => False
  end.
Proof. exact withdraw_all_request. Qed.
Print Assumptions C98_withdraw.

(** C98 for one-sided deposits. *)
Theorem C98_deposit_single : forall e signers w pool authority s d user source dest rest n mp x,
  env_ok e -> reachable e w -> signers_ok e signers ->
  pool_at w pool s -> find_pda e pool = Some (authority, st_bump_seed s) ->
  is_u64 n -> is_u64 mp -> In user signers -> single_signer w user -> single_signer w authority ->
  thawed w (side_vault d s) -> wallet w source user (mint_on d s) x -> st_pool_mint s <> mint_on d s ->
  payee w dest (st_pool_mint s) -> (forall t, token_at w dest t -> t_native t = false) ->
  let accounts := pool :: authority :: user :: source :: st_token_a s :: st_token_b s
                    :: st_pool_mint s :: dest :: TOKEN_PROGRAM_ID :: rest in
  let bal_a := balance w (st_token_a s) in
  let bal_b := balance w (st_token_b s) in
  let sup := supply w (st_pool_mint s) in
  let quote := if sup =? 0 then Val (10 ^ 9) else curve_deposit_single (st_curve s) n bal_a bal_b sup d (st_fees s) in
  match exec e signers w (DepositSingle accounts n mp) with
  | Ok _ => True
  | Err (ESwap ZeroTradingTokens) => quote = Non \/ quote = Val 0
  | Err (ESwap ExceededSlippage) => exists minted, quote = Val minted /\ minted < mp
  | Err (ESwap ConversionFailure) => exists minted, quote = Val minted /\ u64_max < minted
  | Err EToken => exists minted, quote = Val minted /\ mp <= minted /\
      (x < n \/ u64_max < balance w (side_vault d s) + n \/
       u64_max < balance w dest + minted \/ u64_max < sup + minted)
  | Err EPanic => exists p, st_curve s = ConstantPrice p /\ u128_max * pool_value p bal_a bal_b < sup * value_of p n d
  | Err _ => False
  end.
Proof. exact deposit_single_request. Qed.
Print Assumptions C98_deposit_single.

(** C98 for one-sided withdrawals. *)
Theorem C98_withdraw_single : forall e signers w pool authority s d user source dest rest n mp x,
  env_ok e -> reachable e w -> signers_ok e signers ->
  pool_at w pool s -> find_pda e pool = Some (authority, st_bump_seed s) ->
  is_u64 n -> is_u64 mp -> In user signers -> single_signer w user -> single_signer w authority ->
  thawed w (side_vault d s) -> payee w dest (mint_on d s) -> dest <> side_vault d s ->
  wallet w source user (st_pool_mint s) x -> (forall t, token_at w source t -> t_native t = false) ->
  st_pool_mint s <> mint_on d s -> payee w (st_pool_fee_account s) (st_pool_mint s) ->
  let accounts := pool :: authority :: user :: st_pool_mint s :: source :: st_token_a s :: st_token_b s
                    :: dest :: st_pool_fee_account s :: TOKEN_PROGRAM_ID :: rest in
  let bal_a := balance w (st_token_a s) in
  let bal_b := balance w (st_token_b s) in
  let sup := supply w (st_pool_mint s) in
  let charge := exit_charge s source in
  let quote := curve_withdraw_single (st_curve s) n bal_a bal_b sup d (st_fees s) in
  match exec e signers w (WithdrawSingle accounts n mp) with
  | Ok _ => True
  | Err (ESwap ZeroTradingTokens) => quote = Non \/ quote = Val 0
  | Err (ESwap ExceededSlippage) => exists burnt, quote = Val burnt /\ mp < burnt + charge burnt
  | Err (ESwap FeeCalculationFailure) => exists burnt, quote = Val burnt /\
      u128_max < burnt * owner_withdraw_fee_num (st_fees s)
  | Err (ESwap CalculationFailure) => exists burnt, quote = Val burnt /\ u128_max < burnt + charge burnt
  | Err (ESwap ConversionFailure) => exists burnt, quote = Val burnt /\ u64_max < burnt + charge burnt
  | Err EToken => exists burnt, quote = Val burnt /\ burnt + charge burnt <= mp /\
      (x < burnt + charge burnt \/ sup < burnt \/ u64_max < balance w (st_pool_fee_account s) + charge burnt \/
       balance w (side_vault d s) < n \/ u64_max < balance w dest + n)
  | Err EPanic => exists p, st_curve s = ConstantPrice p /\ u128_max * pool_value p bal_a bal_b < sup * value_of p n d
  | Err _ => False
  end.
Proof. exact withdraw_single_request. Qed.
Print Assumptions C98_withdraw_single.

(** On the example ledger, where user 901 holds 10^5 of token A, 5 * 10^4 of token B and 10^9
    tokens of pool 300: for each instruction a request that goes through and the errors of
    others. *)
Example C98_case :
  let outcome i := match exec ex_env [901] ex_w2 i with Ok _ => None | Err err => Some err end in
  let swap n min := outcome (Swap [300; auth 300; 901; 111; 301; 302; 112; 403; 303; TOKEN_PROGRAM_ID] n min) in
  let enter n ma mb := outcome (DepositAll [300; auth 300; 901; 111; 112; 301; 302; 403; 304; TOKEN_PROGRAM_ID] n ma mb) in
  let leave n ma mb := outcome (WithdrawAll [300; auth 300; 901; 403; 304; 301; 302; 111; 112; 303; TOKEN_PROGRAM_ID] n ma mb) in
  let enter_a n min := outcome (DepositSingle [300; auth 300; 901; 111; 301; 302; 403; 304; TOKEN_PROGRAM_ID] n min) in
  let leave_a n max := outcome (WithdrawSingle [300; auth 300; 901; 403; 304; 301; 302; 111; 303; TOKEN_PROGRAM_ID] n max) in
  map (fun x => swap (fst x) (snd x)) [(600, 0); (2, 0); (600, 195)] =
    [None; Some (ESwap ZeroTradingTokens); Some (ESwap ExceededSlippage)] /\
  map (fun x => enter (fst x) (snd x) 3) [(10 ^ 6, 7); (10 ^ 6, 6); (1, 6)] =
    [None; Some (ESwap ExceededSlippage); Some (ESwap ZeroTradingTokens)] /\
  enter (10 ^ 14) (10 ^ 18) (10 ^ 18) = Some EToken /\
  outcome (DepositAll [100; auth 100; 901; 111; 112; 101; 102; 203; 103; TOKEN_PROGRAM_ID] 1 1 1) =
    Some (ESwap UnsupportedCurveOperation) /\
  map (fun x => leave (fst x) (snd x) 0) [(5 * 10 ^ 8, 3087); (5 * 10 ^ 8, 3088); (1, 0); (10 ^ 9 + 1, 0)] =
    [None; Some (ESwap ExceededSlippage); Some (ESwap ZeroTradingTokens); Some EToken] /\
  map (fun x => enter_a (fst x) (snd x)) [(1000, 0); (0, 0); (1000, 10 ^ 18); (10 ^ 17, 0); (10 ^ 6, 0)] =
    [None; Some (ESwap ZeroTradingTokens); Some (ESwap ExceededSlippage); Some (ESwap ConversionFailure); Some EToken] /\
  map (fun x => leave_a (fst x) (snd x)) [(1000, 10 ^ 18); (0, 0); (1000, 0); (10 ^ 17, u64_max); (10 ^ 4, u64_max)] =
    [None; Some (ESwap ZeroTradingTokens); Some (ESwap ExceededSlippage); Some (ESwap ConversionFailure); Some EToken] /\
  payee ex_w2 303 403 /\ payee ex_w2 111 201 /\ payee ex_w2 112 202.
Proof.
  vm_compute. repeat (split; [reflexivity |]).
  split; [| split]; eexists; repeat split.
Qed.
