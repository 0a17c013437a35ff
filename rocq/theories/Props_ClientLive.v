(** Requests made with the client library, its tags corrected: C126. *)
From Verif Require Import Tactics Ints Fees LinearCurve SwapCurve Codec Token Processor Api History Entry Client
  Spec LedgerSpec WireSpec ClientSpec CallSpec LiveSpec.
From Verif Require Import LinearProps LedgerExamples HistoryExamples LiveExamples ClientLive.

(** C126.  A trade requested through a loaded pool is always built, and with the tag of the program it
    goes through exactly under the conditions of C80. *)
Theorem C126_swap : forall e w k s payer user source ssrc sdst dest host n m x,
  env_ok e -> reachable e w -> pool_at w k s -> ~ is_pda e payer -> ~ is_pda e user ->
  is_u64 n -> is_u64 m -> single_signer w user ->
  (forall authority, create_pda e k (st_bump_seed s) = Some authority -> single_signer w authority) ->
  (ssrc = st_token_a s /\ sdst = st_token_b s \/ ssrc = st_token_b s /\ sdst = st_token_a s) ->
  thawed w ssrc -> thawed w sdst -> wallet w source user (vault_mint_of s ssrc) x ->
  feeless (st_fees s) \/ st_pool_mint s <> st_token_a_mint s /\ st_pool_mint s <> st_token_b_mint s ->
  let d := if ssrc =? st_token_a s then AtoB else BtoA in
  exists ts c, load_token_swap e w k PROGRAM_ID = Some ts /\ ts_swap ts source ssrc sdst dest host user n m = Some c /\
  ((exists w', entry e w (retagged (Swap [] 0 0) (call_of payer [] c)) = Ok w') <->
  dest <> sdst /\
  exists r minted,
    curve_swap (st_curve s) n (balance w ssrc) (balance w sdst) d (st_fees s) = Val r /\
    m <= destination_amount_swapped r /\ source_amount_swapped r <= x /\
    balance w ssrc + source_amount_swapped r <= u64_max /\
    accepts w dest (vault_mint_of s sdst) (destination_amount_swapped r) /\
    curve_withdraw_single (st_curve s) (owner_fee r)
      (side_a d (new_swap_source_amount r) (new_swap_destination_amount r))
      (side_b d (new_swap_source_amount r) (new_swap_destination_amount r))
      (supply w (st_pool_mint s)) d (st_fees s) = Val minted /\
    (0 < minted -> accepts_new w (st_pool_fee_account s) (st_pool_mint s) minted)).
Proof. exact client_swap_when. Qed.
Print Assumptions C126_swap.

(** C126 for linear pools. *)
Theorem C126_linear_swap : forall e w k s lc payer user source ssrc sdst dest host n m x,
  env_ok e -> reachable e w -> pool_at w k s -> st_curve s = LinearPrice lc -> ~ is_pda e payer -> ~ is_pda e user ->
  is_u64 n -> is_u64 m -> single_signer w user ->
  (forall authority, create_pda e k (st_bump_seed s) = Some authority -> single_signer w authority) ->
  (ssrc = st_token_a s /\ sdst = st_token_b s \/ ssrc = st_token_b s /\ sdst = st_token_a s) ->
  thawed w ssrc -> thawed w sdst -> wallet w source user (vault_mint_of s ssrc) x ->
  let d := if ssrc =? st_token_a s then AtoB else BtoA in
  exists ts c, load_token_swap e w k PROGRAM_ID = Some ts /\ ts_swap ts source ssrc sdst dest host user n m = Some c /\
  ((exists w', entry e w (retagged (Swap [] 0 0) (call_of payer [] c)) = Ok w') <->
  dest <> sdst /\
  exists taken paid,
    linear_swap lc n (balance w ssrc) (balance w sdst) d = Val (taken, paid) /\
    m <= paid <= balance w sdst /\ taken <= x /\
    balance w ssrc + taken <= u64_max /\ accepts w dest (vault_mint_of s sdst) paid).
Proof. exact client_linear_swap_when. Qed.
Print Assumptions C126_linear_swap.

(** C126 for two-sided withdrawals. *)
Theorem C126_withdraw : forall e w k s payer user dest_a dest_b source n ma mb x,
  env_ok e -> reachable e w -> pool_at w k s -> ~ is_pda e payer -> ~ is_pda e user ->
  is_u64 n -> is_u64 ma -> is_u64 mb -> single_signer w user ->
  (forall authority, create_pda e k (st_bump_seed s) = Some authority -> single_signer w authority) ->
  thawed w (st_token_a s) -> thawed w (st_token_b s) ->
  wallet w source user (st_pool_mint s) x -> (forall t, token_at w source t -> t_native t = false) ->
  st_pool_mint s <> st_token_a_mint s -> st_pool_mint s <> st_token_b_mint s ->
  let bal_a := balance w (st_token_a s) in
  let bal_b := balance w (st_token_b s) in
  exists ts c, load_token_swap e w k PROGRAM_ID = Some ts /\ ts_withdraw_all ts dest_a dest_b source user n ma mb = Some c /\
  ((exists w', entry e w (retagged (WithdrawAll [] 0 0 0) (call_of payer [] c)) = Ok w') <->
  dest_a <> st_token_a s /\ dest_b <> st_token_b s /\ n <= x /\
  exists charge share_a share_b,
    (st_pool_fee_account s = source /\ charge = 0 \/
     st_pool_fee_account s <> source /\ owner_withdraw_fee (st_fees s) n = Val charge) /\
    charge <= n /\ n - charge <= supply w (st_pool_mint s) /\
    (0 < charge -> accepts w (st_pool_fee_account s) (st_pool_mint s) charge) /\
    pool_tokens_to_trading_tokens (st_curve s) (n - charge) (supply w (st_pool_mint s)) bal_a bal_b Floor
      = Val (share_a, share_b) /\
    share_a <= u64_max /\ share_b <= u64_max /\
    let a := Z.min bal_a share_a in let b := Z.min bal_b share_b in
    ma <= a /\ mb <= b /\ (a = 0 -> bal_a = 0) /\ (b = 0 -> bal_b = 0) /\
    (0 < a -> accepts w dest_a (st_token_a_mint s) a) /\ (0 < b -> accepts w dest_b (st_token_b_mint s) b)).
Proof. exact client_withdraw_when. Qed.
Print Assumptions C126_withdraw.

(** C126 for two-sided deposits. *)
Theorem C126_deposit : forall e w k s payer user source_a source_b dest n ma mb xa xb,
  env_ok e -> reachable e w -> pool_at w k s -> ~ is_pda e payer -> ~ is_pda e user ->
  is_u64 n -> is_u64 ma -> is_u64 mb -> single_signer w user ->
  (forall authority, create_pda e k (st_bump_seed s) = Some authority -> single_signer w authority) ->
  thawed w (st_token_a s) -> thawed w (st_token_b s) ->
  wallet w source_a user (st_token_a_mint s) xa -> wallet w source_b user (st_token_b_mint s) xb ->
  st_pool_mint s <> st_token_a_mint s -> st_pool_mint s <> st_token_b_mint s ->
  let bal_a := balance w (st_token_a s) in
  let bal_b := balance w (st_token_b s) in
  let sup := supply w (st_pool_mint s) in
  let minted := if sup =? 0 then 10 ^ 9 else n in
  let outstanding := if sup =? 0 then 10 ^ 9 else sup in
  exists ts c, load_token_swap e w k PROGRAM_ID = Some ts /\ ts_deposit_all ts source_a source_b dest user n ma mb = Some c /\
  ((exists w', entry e w (retagged (DepositAll [] 0 0 0) (call_of payer [] c)) = Ok w') <->
  takes_deposits (st_curve s) /\
  exists a b,
    pool_tokens_to_trading_tokens (st_curve s) minted outstanding bal_a bal_b Ceiling = Val (a, b) /\
    a <> 0 /\ b <> 0 /\ a <= ma /\ b <= mb /\ a <= xa /\ b <= xb /\
    bal_a + a <= u64_max /\ bal_b + b <= u64_max /\
    accepts_new w dest (st_pool_mint s) minted).
Proof. exact client_deposit_when. Qed.
Print Assumptions C126_deposit.

(** C126 for one-sided withdrawals. *)
Theorem C126_withdraw_single : forall e w k s d payer user source dest n mp x,
  env_ok e -> reachable e w -> pool_at w k s -> ~ is_pda e payer -> ~ is_pda e user ->
  is_u64 n -> is_u64 mp -> single_signer w user ->
  (forall authority, create_pda e k (st_bump_seed s) = Some authority -> single_signer w authority) ->
  thawed w (side_vault d s) -> (exists t, token_at w dest t /\ t_mint t = mint_on d s) ->
  wallet w source user (st_pool_mint s) x -> (forall t, token_at w source t -> t_native t = false) ->
  st_pool_mint s <> mint_on d s ->
  exists ts c, load_token_swap e w k PROGRAM_ID = Some ts /\ ts_withdraw_single ts dest source user n mp = Some c /\
  ((exists w', entry e w (retagged (WithdrawSingle [] 0 0) (call_of payer [] c)) = Ok w') <->
  dest <> side_vault d s /\
  exists burnt charge,
    curve_withdraw_single (st_curve s) n (balance w (st_token_a s)) (balance w (st_token_b s))
      (supply w (st_pool_mint s)) d (st_fees s) = Val burnt /\
    (st_pool_fee_account s = source /\ charge = 0 \/
     st_pool_fee_account s <> source /\ owner_withdraw_fee (st_fees s) burnt = Val charge) /\
    burnt + charge <= mp /\ burnt + charge <> 0 /\ burnt + charge <= x /\ burnt <= supply w (st_pool_mint s) /\
    (0 < charge -> accepts w (st_pool_fee_account s) (st_pool_mint s) charge) /\
    n <= balance w (side_vault d s) /\ accepts w dest (mint_on d s) n).
Proof. exact client_withdraw_single_when. Qed.
Print Assumptions C126_withdraw_single.

(** C126 for one-sided deposits. *)
Theorem C126_deposit_single : forall e w k s d payer user source dest n mp x,
  env_ok e -> reachable e w -> pool_at w k s -> ~ is_pda e payer -> ~ is_pda e user ->
  is_u64 n -> is_u64 mp -> single_signer w user ->
  (forall authority, create_pda e k (st_bump_seed s) = Some authority -> single_signer w authority) ->
  thawed w (side_vault d s) -> wallet w source user (mint_on d s) x -> st_pool_mint s <> mint_on d s ->
  exists ts c, load_token_swap e w k PROGRAM_ID = Some ts /\ ts_deposit_single ts source dest user n mp = Some c /\
  ((exists w', entry e w (retagged (DepositSingle [] 0 0) (call_of payer [] c)) = Ok w') <->
  exists minted,
    (if supply w (st_pool_mint s) =? 0 then Val (10 ^ 9) else
       curve_deposit_single (st_curve s) n (balance w (st_token_a s)) (balance w (st_token_b s))
         (supply w (st_pool_mint s)) d (st_fees s)) = Val minted /\
    mp <= minted /\ minted <> 0 /\ n <= x /\ balance w (side_vault d s) + n <= u64_max /\
    accepts_new w dest (st_pool_mint s) minted).
Proof. exact client_deposit_single_when. Qed.
Print Assumptions C126_deposit_single.

(** On the example ledger, paid for by 902: a purchase for 600 that asks for 11 or 12 tokens, and half
    of the pool tokens of 901, with the payment as the limit and with one unit more. *)
Example C126_case :
  match load_token_swap ex_env ex_w2 100 PROGRAM_ID, load_token_swap ex_env ex_w2 300 PROGRAM_ID with
  | Some ts1, Some ts2 =>
      match ts_swap ts1 111 101 102 112 None 901 600 11, ts_swap ts1 111 101 102 112 None 901 600 12,
            ts_withdraw_all ts2 111 112 304 901 500000000 3087 0, ts_withdraw_all ts2 111 112 304 901 500000000 3088 0 with
      | Some c1, Some c2, Some c3, Some c4 =>
          bals (entry ex_env ex_w2 (retagged (Swap [] 0 0) (call_of 902 [] c1))) [111; 101; 102; 112]
            = [99400; 600; 4989; 50011] /\
          failed (entry ex_env ex_w2 (retagged (Swap [] 0 0) (call_of 902 [] c2))) = true /\
          bals (entry ex_env ex_w2 (retagged (WithdrawAll [] 0 0 0) (call_of 902 [] c3))) [304; 303; 111; 112]
            = [500000000; 25000000; 103087; 51029] /\
          failed (entry ex_env ex_w2 (retagged (WithdrawAll [] 0 0 0) (call_of 902 [] c4))) = true
      | _, _, _, _ => False
      end
  | _, _ => False
  end.
Proof. vm_compute. repeat split; reflexivity. Qed.

(** One-sided, with the constant-price pool: 600 units of token A in, and 100 units out. *)
Example C126_single_case :
  match load_token_swap ex_env ex_w2 300 PROGRAM_ID with
  | Some ts =>
      match ts_deposit_single ts 111 304 901 600 0, ts_withdraw_single ts 111 304 901 100 1000000000, ts_withdraw_single ts 111 304 901 100 1 with
      | Some c1, Some c2, Some c3 =>
          bals (entry ex_env ex_w2 (retagged (DepositSingle [] 0 0) (call_of 902 [] c1))) [111; 301] = [99400; 7600] /\
          bals (entry ex_env ex_w2 (retagged (WithdrawSingle [] 0 0) (call_of 902 [] c2))) [111; 301] = [100100; 6900] /\
          failed (entry ex_env ex_w2 (retagged (WithdrawSingle [] 0 0) (call_of 902 [] c3))) = true
      | _, _, _ => False
      end
  | None => False
  end.
Proof. vm_compute. repeat split; reflexivity. Qed.
