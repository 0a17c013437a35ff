(** Instructions on the ledger: C02, C20, C22, C34, C35, C37, C38, C41-C44, C47. *)
From Verif Require Import Tactics Ints Fees SwapCurve Codec Token Processor Api History Spec LedgerSpec.
From Verif Require Import EffectFacts CreateFacts PermFacts LedgerExamples.

(** C02.  A successful swap moves exactly what the pool's curve quotes for the
    vault balances, within the caller's limits, mints the owner fee to the fee
    account, and does nothing else.  Accounts may coincide: the net change of an
    account is the sum of its roles. *)
Theorem C02_swap_moves_the_quote : forall e signers w accounts ain mout w', world_wf w ->
  exec e signers w (Swap accounts ain mout) = Ok w' ->
  let pool := nth 0 accounts 0 in let source := nth 3 accounts 0 in
  let ssrc := nth 4 accounts 0 in let sdst := nth 5 accounts 0 in
  let dest := nth 6 accounts 0 in let mint := nth 7 accounts 0 in let fee := nth 8 accounts 0 in
  exists s r minted, pool_at w pool s /\
    let d := if ssrc =? st_token_a s then AtoB else BtoA in
    let x := source_amount_swapped r in let y := destination_amount_swapped r in
    curve_swap (st_curve s) ain (balance w ssrc) (balance w sdst) d (st_fees s) = Val r /\
    0 <= x <= ain /\ mout <= y <= balance w sdst /\ 0 <= y /\
    (creatable (st_curve s) -> 0 < x /\ 0 < y) /\
    curve_withdraw_single (st_curve s) (owner_fee r)
      (side_a d (balance w ssrc + x) (balance w sdst - y))
      (side_b d (balance w ssrc + x) (balance w sdst - y)) (supply w mint) d (st_fees s) = Val minted /\
    0 <= minted /\
    ledger_change w w'
      (fun k => only_at ssrc k x - only_at source k x + only_at dest k y - only_at sdst k y
                + only_at fee k minted)
      (fun k => only_at mint k minted)
      [source; ssrc; mint; fee; sdst; dest] [source; sdst].
Proof. exact swap_effect. Qed.
Print Assumptions C02_swap_moves_the_quote.
(** The linear pool 100 ... *)
Example C02_case :
  let ks := [101; 102; 203; 103; 111; 112] in
  let r := exec ex_env [901] ex_w2 (Swap [100; auth 100; 901; 111; 101; 102; 112; 203; 103; TOKEN_PROGRAM_ID] 101 2) in
  bals (Ok ex_w2) ks = [0; 5000; 1000000000; 0; 100000; 50000] /\
  bals r ks = [101; 4998; 1000000000; 0; 99899; 50002].
Proof. vm_compute. split; reflexivity. Qed.
(** ... and the constant-price pool 300, whose owner fee is minted to account 303. *)
Example C02_case_fees :
  let ks := [301; 302; 403; 303; 111; 112] in
  let r := exec ex_env [901] ex_w2 (Swap [300; auth 300; 901; 111; 301; 302; 112; 403; 303; TOKEN_PROGRAM_ID] 1000 2) in
  bals (Ok ex_w2) ks = [7000; 2000; 1000000000; 0; 100000; 50000] /\
  bals r ks = [7999; 1677; 1001458174; 1458174; 99001; 50323].
Proof. vm_compute. split; reflexivity. Qed.
(** A swap that would pay less than the caller's minimum is refused. *)
Example C02_case_limit :
  match exec ex_env [901] ex_w2 (Swap [100; auth 100; 901; 111; 101; 102; 112; 203; 103; TOKEN_PROGRAM_ID] 101 3) with
  | Err (ESwap ExceededSlippage) => True | _ => False end.
Proof. vm_compute. exact I. Qed.

(** C20.  On a pool whose trade and owner trade fees are zero (every linear pool:
    [C20_linear_pools_mint_nothing] in Props_History) a swap exchanges exactly the curve's fee-free
    quote and changes no supply. *)
Theorem C20_no_fee_swap : forall e signers w accounts ain mout w' s, world_wf w ->
  exec e signers w (Swap accounts ain mout) = Ok w' ->
  pool_at w (nth 0 accounts 0) s -> trade_fee_num (st_fees s) = 0 -> owner_trade_fee_num (st_fees s) = 0 ->
  let source := nth 3 accounts 0 in let ssrc := nth 4 accounts 0 in let sdst := nth 5 accounts 0 in
  let dest := nth 6 accounts 0 in
  exists x y,
    swap_without_fees (st_curve s) ain (balance w ssrc) (balance w sdst)
      (if ssrc =? st_token_a s then AtoB else BtoA) = Val (x, y) /\
    (forall k, supply w' k = supply w k) /\
    (forall k, balance w' k = balance w k + only_at ssrc k x - only_at source k x + only_at dest k y
                              - only_at sdst k y).
Proof. exact no_fee_swap_effect. Qed.
Print Assumptions C20_no_fee_swap.
(** The linear pool's fee schedule; the swap above left every supply as it was. *)
Example C20_case : match swap_unpack (raw_of (a_data (ex_w2 100))) with
  | Ok s => trade_fee_num (st_fees s) = 0 /\ owner_trade_fee_num (st_fees s) = 0
  | Err _ => False end.
Proof. vm_compute. split; reflexivity. Qed.

(** C22.  A pool is created only with proper fee fractions, and only within the
    owner's constraints. *)
Theorem C22_created_fees_are_proper : forall e signers w i w' f c, creates i -> exec e signers w i = Ok w' -> requested i = Some (f, c) ->
  proper_fraction (trade_fee_num f) (trade_fee_den f) /\
  proper_fraction (owner_trade_fee_num f) (owner_trade_fee_den f) /\
  proper_fraction (owner_withdraw_fee_num f) (owner_withdraw_fee_den f) /\
  proper_fraction (host_fee_num f) (host_fee_den f) /\
  exists tf, token_at w (nth 5 (instr_accounts i) 0) tf /\ constraints_ok e f c (t_owner tf).
Proof. exact create_fees. Qed.
Print Assumptions C22_created_fees_are_proper.
(** A trade fee of 100% is refused; the owner's constraints refuse a linear pool
    when only constant-price pools are allowed. *)
Example C22_case_instruction :
  match exec ex_env [300] ex_w1 (InitConstantPrice [300; auth 300; 301; 302; 403; 303; 304; TOKEN_PROGRAM_ID]
          (mk_fees 100 100 1 50 1 20 0 0) 3) with Err (ESwap InvalidFee) => True | _ => False end.
Proof. vm_compute. exact I. Qed.
Example C22_case_constraints :
  let go tags := match exec (mk_env (find_pda ex_env) (create_pda ex_env)
                               (Some (mk_constraints (Some 900) tags linear_fees))) [100] ex_w0 ex_init1 with
                 | Ok _ => true | Err _ => false end in
  go [1] = false /\ go [1; 30] = true.
Proof. vm_compute. split; reflexivity. Qed.

(** C34.  Creation on an account that holds a pool is refused with AlreadyInUse,
    as soon as the transaction carries values of the right types, enough accounts
    and the signature of the pool account; nothing else is looked at. *)
Theorem C34_second_creation_refused : forall e signers w i l, creates i -> (exists s, pool_at w (named_pool i) s) ->
  forallb u64b (instr_args i) = true -> anchor_accounts 8 0 signers (instr_accounts i) = Ok l ->
  exec e signers w i = Err (ESwap AlreadyInUse).
Proof. exact create_refused. Qed.
Print Assumptions C34_second_creation_refused.

(** C34.  So creation succeeds only where there is no pool yet. *)
Theorem C34_creation_needs_a_fresh_account : forall e signers w i w', creates i -> exec e signers w i = Ok w' ->
  forall s, ~ pool_at w (named_pool i) s.
Proof. exact create_once. Qed.
Print Assumptions C34_creation_needs_a_fresh_account.
(** Creating pool 100 a second time. *)
Example C34_case : exec ex_env [100] ex_w2 ex_init1 = Err (ESwap AlreadyInUse).
Proof. vm_compute. reflexivity. Qed.

(** C35.  Everything that holds when a pool has been created. *)
Theorem C35_creation : forall e signers w i w', env_ok e -> world_wf w -> Forall is_pubkey (instr_accounts i) ->
  creates i -> exec e signers w i = Ok w' ->
  let l := instr_accounts i in
  let pool := nth 0 l 0 in let authority := nth 1 l 0 in let vault_a := nth 2 l 0 in let vault_b := nth 3 l 0 in
  let mint := nth 4 l 0 in let fee := nth 5 l 0 in let dest := nth 6 l 0 in
  exists f c bump ta tb tf td pm,
    requested i = Some (f, c) /\ fees_wf f /\ curve_wf c /\ In pool signers /\
    a_owner (w pool) = PROGRAM_ID /\ (forall s, ~ pool_at w pool s) /\
    find_pda e pool = Some (authority, bump) /\
    token_at w vault_a ta /\ token_at w vault_b tb /\ token_at w fee tf /\ token_at w dest td /\ mint_at w mint pm /\
    t_owner ta = authority /\ t_owner tb = authority /\ t_mint ta <> t_mint tb /\
    t_delegate ta = None /\ t_delegate tb = None /\ t_close_authority ta = None /\ t_close_authority tb = None /\
    m_supply pm = 0 /\ m_authority pm = Some authority /\ m_freeze_authority pm = None /\
    t_mint tf = mint /\ t_owner tf <> authority /\ t_mint td = mint /\ t_owner td <> authority /\
    constraints_ok e f c (t_owner tf) /\ fees_validate f = Ok tt /\ curve_validate c = Ok tt /\
    curve_validate_supply c (t_amount ta) (t_amount tb) = Ok tt /\
    pool_at w' pool (mk_swap_state true bump TOKEN_PROGRAM_ID vault_a vault_b mint (t_mint ta) (t_mint tb) fee f c) /\
    length (raw_of (a_data (w' pool))) = length (raw_of (a_data (w pool))) /\
    (forall k, balance w' k = balance w k + only_at dest k (10 ^ 9)) /\
    (forall k, supply w' k = supply w k + only_at mint k (10 ^ 9)) /\
    (forall k, ~ In k [pool; mint; dest] -> w' k = w k) /\
    (forall k, k <> pool -> sans_amount (w' k) = sans_amount (w k)) /\ world_wf w'.
Proof. exact create_effect. Qed.
Print Assumptions C35_creation.
Example C35_case :
  let ks := [403; 301; 302; 303; 304] in
  let r := exec ex_env [300] ex_w1 (ex_init2) in
  bals (Ok ex_w1) ks = [0; 7000; 2000; 0; 0] /\
  bals r ks = [1000000000; 7000; 2000; 0; 1000000000].
Proof. vm_compute. split; reflexivity. Qed.
(** A vault owned by someone else is refused. *)
Example C35_case_owner :
  match exec ex_env [300] ex_w1 (InitConstantPrice [300; auth 300; 111; 302; 403; 303; 304; TOKEN_PROGRAM_ID] ex_fees 3) with
  | Err (ESwap InvalidOwner) => True | _ => False end.
Proof. vm_compute. exact I. Qed.

(** C37.  The accounts a successful instruction has been given: a pool of this
    program, its own authority, the recorded vaults, mint, fee account and token
    program, a signature of the user, and user accounts other than the vault they
    trade against. *)
Theorem C37_swap_accounts : forall e signers w accounts ain mout w', exec e signers w (Swap accounts ain mout) = Ok w' ->
  let pool := nth 0 accounts 0 in let source := nth 3 accounts 0 in
  let ssrc := nth 4 accounts 0 in let sdst := nth 5 accounts 0 in let dest := nth 6 accounts 0 in
  exists s, pool_at w pool s /\ create_pda e pool (st_bump_seed s) = Some (nth 1 accounts 0) /\
    In (nth 2 accounts 0) signers /\
    (ssrc = st_token_a s /\ sdst = st_token_b s \/ ssrc = st_token_b s /\ sdst = st_token_a s) /\ ssrc <> sdst /\
    source <> ssrc /\ dest <> sdst /\
    nth 7 accounts 0 = st_pool_mint s /\ nth 8 accounts 0 = st_pool_fee_account s /\
    nth 9 accounts 0 = st_token_program_id s /\ st_token_program_id s = TOKEN_PROGRAM_ID.
Proof. exact swap_accounts. Qed.
Print Assumptions C37_swap_accounts.
(** Substituting the vault, the fee account or the authority of the other pool. *)
Example C37_case :
  let go l := match exec ex_env [901] ex_w2 (Swap l 1000 2) with Ok _ => true | Err _ => false end in
  go [300; auth 300; 901; 111; 301; 302; 112; 403; 303; TOKEN_PROGRAM_ID] = true /\
  go [300; auth 300; 901; 111; 101; 302; 112; 403; 303; TOKEN_PROGRAM_ID] = false /\
  go [300; auth 300; 901; 111; 301; 302; 112; 403; 304; TOKEN_PROGRAM_ID] = false /\
  go [300; auth 300; 901; 111; 301; 302; 112; 203; 303; TOKEN_PROGRAM_ID] = false /\
  go [300; auth 100; 901; 111; 301; 302; 112; 403; 303; TOKEN_PROGRAM_ID] = false /\
  go [300; auth 300; 901; 111; 301; 301; 112; 403; 303; TOKEN_PROGRAM_ID] = false /\
  go [111; auth 300; 901; 111; 301; 302; 112; 403; 303; TOKEN_PROGRAM_ID] = false /\
  go [300; auth 300; 900; 111; 301; 302; 112; 403; 303; TOKEN_PROGRAM_ID] = false.
Proof. vm_compute. repeat split; reflexivity. Qed.

(** C37, continued. *)
Theorem C37_deposit_all_accounts : forall e signers w accounts n ma mb w', exec e signers w (DepositAll accounts n ma mb) = Ok w' ->
  let pool := nth 0 accounts 0 in
  exists s, pool_at w pool s /\ create_pda e pool (st_bump_seed s) = Some (nth 1 accounts 0) /\
    In (nth 2 accounts 0) signers /\ allows_deposits (st_curve s) = true /\
    nth 5 accounts 0 = st_token_a s /\ nth 6 accounts 0 = st_token_b s /\
    nth 3 accounts 0 <> st_token_a s /\ nth 4 accounts 0 <> st_token_b s /\
    nth 7 accounts 0 = st_pool_mint s /\
    nth 9 accounts 0 = st_token_program_id s /\ st_token_program_id s = TOKEN_PROGRAM_ID.
Proof. exact deposit_all_accounts. Qed.
Print Assumptions C37_deposit_all_accounts.

(** C37, continued. *)
Theorem C37_withdraw_all_accounts : forall e signers w accounts n ma mb w', exec e signers w (WithdrawAll accounts n ma mb) = Ok w' ->
  let pool := nth 0 accounts 0 in
  exists s, pool_at w pool s /\ create_pda e pool (st_bump_seed s) = Some (nth 1 accounts 0) /\
    In (nth 2 accounts 0) signers /\ nth 3 accounts 0 = st_pool_mint s /\
    nth 5 accounts 0 = st_token_a s /\ nth 6 accounts 0 = st_token_b s /\
    nth 7 accounts 0 <> st_token_a s /\ nth 8 accounts 0 <> st_token_b s /\
    nth 9 accounts 0 = st_pool_fee_account s /\
    nth 10 accounts 0 = st_token_program_id s /\ st_token_program_id s = TOKEN_PROGRAM_ID.
Proof. exact withdraw_all_accounts. Qed.
Print Assumptions C37_withdraw_all_accounts.

(** C37, continued. *)
Theorem C37_deposit_single_accounts : forall e signers w accounts n mp w', exec e signers w (DepositSingle accounts n mp) = Ok w' ->
  let pool := nth 0 accounts 0 in let source := nth 3 accounts 0 in
  exists s, pool_at w pool s /\ create_pda e pool (st_bump_seed s) = Some (nth 1 accounts 0) /\
    In (nth 2 accounts 0) signers /\
    nth 4 accounts 0 = st_token_a s /\ nth 5 accounts 0 = st_token_b s /\
    (same_mint w source (st_token_a s) /\ source <> st_token_a s \/
     same_mint w source (st_token_b s) /\ source <> st_token_b s) /\
    nth 6 accounts 0 = st_pool_mint s /\
    nth 8 accounts 0 = st_token_program_id s /\ st_token_program_id s = TOKEN_PROGRAM_ID.
Proof. exact deposit_single_accounts. Qed.
Print Assumptions C37_deposit_single_accounts.

(** C37, continued. *)
Theorem C37_withdraw_single_accounts : forall e signers w accounts n mp w', exec e signers w (WithdrawSingle accounts n mp) = Ok w' ->
  let pool := nth 0 accounts 0 in let dest := nth 7 accounts 0 in
  exists s, pool_at w pool s /\ create_pda e pool (st_bump_seed s) = Some (nth 1 accounts 0) /\
    In (nth 2 accounts 0) signers /\ nth 3 accounts 0 = st_pool_mint s /\
    nth 5 accounts 0 = st_token_a s /\ nth 6 accounts 0 = st_token_b s /\
    (same_mint w dest (st_token_a s) /\ dest <> st_token_a s \/
     same_mint w dest (st_token_b s) /\ dest <> st_token_b s) /\
    nth 8 accounts 0 = st_pool_fee_account s /\
    nth 9 accounts 0 = st_token_program_id s /\ st_token_program_id s = TOKEN_PROGRAM_ID.
Proof. exact withdraw_single_accounts. Qed.
Print Assumptions C37_withdraw_single_accounts.

(** C38.  Whoever calls what, an account loses tokens only with the authority of
    its owner or of a delegate (for at most the allowance), or by being a vault of
    the pool named in a swap or withdrawal. *)
Theorem C38_debits_are_authorised : forall e signers w i w' k, world_wf w -> exec e signers w i = Ok w' ->
  balance w' k < balance w k ->
  may_debit signers w k (balance w k - balance w' k) \/
  (pays_out i /\ exists s, pool_at w (named_pool i) s /\ (k = st_token_a s \/ k = st_token_b s)).
Proof. exact debit_authorised. Qed.
Print Assumptions C38_debits_are_authorised.
(** Without the signature of user 901 their account cannot be debited. *)
Example C38_case :
  match exec ex_env [900] ex_w2 (Swap [300; auth 300; 900; 111; 301; 302; 112; 403; 303; TOKEN_PROGRAM_ID] 1000 2) with
  | Ok _ => False | Err _ => True end /\
  match exec ex_env [900] ex_w2 (Swap [300; auth 300; 901; 111; 301; 302; 112; 403; 303; TOKEN_PROGRAM_ID] 1000 2) with
  | Ok _ => False | Err _ => True end.
Proof. vm_compute. split; exact I. Qed.

(** C41.  A successful two-sided deposit takes the curve's (rounded up) price of
    the pool tokens, within the caller's maxima, and mints exactly those tokens. *)
Theorem C41_deposit_all : forall e signers w accounts n ma mb w', world_wf w ->
  exec e signers w (DepositAll accounts n ma mb) = Ok w' ->
  let pool := nth 0 accounts 0 in let source_a := nth 3 accounts 0 in let source_b := nth 4 accounts 0 in
  let vault_a := nth 5 accounts 0 in let vault_b := nth 6 accounts 0 in
  let mint := nth 7 accounts 0 in let dest := nth 8 accounts 0 in
  exists s a b, pool_at w pool s /\
    let (minted, outstanding) := if supply w mint =? 0 then (10 ^ 9, 10 ^ 9) else (n, supply w mint) in
    pool_tokens_to_trading_tokens (st_curve s) minted outstanding (balance w vault_a) (balance w vault_b)
      Ceiling = Val (a, b) /\
    0 < a <= ma /\ 0 < b <= mb /\
    ledger_change w w'
      (fun k => only_at vault_a k a - only_at source_a k a + only_at vault_b k b - only_at source_b k b
                + only_at dest k minted)
      (fun k => only_at mint k minted)
      [source_a; vault_a; source_b; vault_b; mint; dest] [source_a; source_b].
Proof. exact deposit_all_effect. Qed.
Print Assumptions C41_deposit_all.
Example C41_case :
  let ks := [301; 302; 403; 303; 304; 111; 112] in
  let r := exec ex_env [901] ex_w2 (DepositAll [300; auth 300; 901; 111; 112; 301; 302; 403; 304; TOKEN_PROGRAM_ID] 1000000 2000 5000) in
  bals (Ok ex_w2) ks = [7000; 2000; 1000000000; 0; 1000000000; 100000; 50000] /\
  bals r ks = [7007; 2003; 1001000000; 0; 1001000000; 99993; 49997].
Proof. vm_compute. split; reflexivity. Qed.

(** C42.  A successful two-sided withdrawal burns the stated tokens less the fee,
    which goes to the fee account, and pays the curve's (rounded down) share, within
    the caller's minima and what the vaults hold. *)
Theorem C42_withdraw_all : forall e signers w accounts n ma mb w', world_wf w ->
  exec e signers w (WithdrawAll accounts n ma mb) = Ok w' ->
  let pool := nth 0 accounts 0 in let mint := nth 3 accounts 0 in let source := nth 4 accounts 0 in
  let vault_a := nth 5 accounts 0 in let vault_b := nth 6 accounts 0 in
  let dest_a := nth 7 accounts 0 in let dest_b := nth 8 accounts 0 in let fee := nth 9 accounts 0 in
  exists s charge share_a share_b, pool_at w pool s /\
    (fee = source /\ charge = 0 \/ fee <> source /\ owner_withdraw_fee (st_fees s) n = Val charge) /\
    0 <= charge <= n /\
    pool_tokens_to_trading_tokens (st_curve s) (n - charge) (supply w mint)
      (balance w vault_a) (balance w vault_b) Floor = Val (share_a, share_b) /\
    let a := Z.min (balance w vault_a) share_a in let b := Z.min (balance w vault_b) share_b in
    ma <= a <= balance w vault_a /\ mb <= b <= balance w vault_b /\ 0 <= a /\ 0 <= b /\
    (a = 0 -> balance w vault_a = 0) /\ (b = 0 -> balance w vault_b = 0) /\
    ledger_change w w'
      (fun k => only_at fee k charge - only_at source k n + only_at dest_a k a - only_at vault_a k a
                + only_at dest_b k b - only_at vault_b k b)
      (fun k => - only_at mint k (n - charge))
      [source; fee; mint; vault_a; dest_a; vault_b; dest_b] [source; vault_a; vault_b].
Proof. exact withdraw_all_effect. Qed.
Print Assumptions C42_withdraw_all.
Example C42_case :
  let ks := [301; 302; 403; 303; 304; 111; 112] in
  let r := exec ex_env [901] ex_w2 (WithdrawAll [300; auth 300; 901; 403; 304; 301; 302; 111; 112; 303; TOKEN_PROGRAM_ID] 100000000 100 100) in
  bals (Ok ex_w2) ks = [7000; 2000; 1000000000; 0; 1000000000; 100000; 50000] /\
  bals r ks = [6383; 1795; 905000000; 5000000; 900000000; 100617; 50205].
Proof. vm_compute. split; reflexivity. Qed.

(** C43.  A successful single-sided deposit moves exactly the stated amount to the
    vault of the same token and mints the curve's quote, at least the caller's
    minimum. *)
Theorem C43_deposit_single : forall e signers w accounts n mp w', world_wf w ->
  exec e signers w (DepositSingle accounts n mp) = Ok w' ->
  let pool := nth 0 accounts 0 in let source := nth 3 accounts 0 in
  let vault_a := nth 4 accounts 0 in let vault_b := nth 5 accounts 0 in
  let mint := nth 6 accounts 0 in let dest := nth 7 accounts 0 in
  exists s d minted, pool_at w pool s /\
    let vault := match d with AtoB => vault_a | BtoA => vault_b end in
    same_mint w source vault /\
    (if supply w mint =? 0 then Val (10 ^ 9) else
       curve_deposit_single (st_curve s) n (balance w vault_a) (balance w vault_b) (supply w mint) d (st_fees s))
      = Val minted /\
    mp <= minted /\ 0 < minted /\ 0 <= n /\
    ledger_change w w'
      (fun k => only_at vault k n - only_at source k n + only_at dest k minted)
      (fun k => only_at mint k minted)
      [source; vault; mint; dest] [source].
Proof. exact deposit_single_effect. Qed.
Print Assumptions C43_deposit_single.
Example C43_case :
  let ks := [301; 302; 403; 303; 304; 111; 112] in
  let r := exec ex_env [901] ex_w2 (DepositSingle [300; auth 300; 901; 112; 301; 302; 403; 304; TOKEN_PROGRAM_ID] 500 100) in
  bals (Ok ex_w2) ks = [7000; 2000; 1000000000; 0; 1000000000; 100000; 50000] /\
  bals r ks = [7000; 2500; 1114923076; 0; 1114923076; 100000; 49500].
Proof. vm_compute. split; reflexivity. Qed.

(** C44.  A successful single-sided withdrawal pays exactly the stated amount and
    burns and charges together at most the caller's maximum. *)
Theorem C44_withdraw_single : forall e signers w accounts n mp w', world_wf w ->
  exec e signers w (WithdrawSingle accounts n mp) = Ok w' ->
  let pool := nth 0 accounts 0 in let mint := nth 3 accounts 0 in let source := nth 4 accounts 0 in
  let vault_a := nth 5 accounts 0 in let vault_b := nth 6 accounts 0 in
  let dest := nth 7 accounts 0 in let fee := nth 8 accounts 0 in
  exists s d burnt charge, pool_at w pool s /\
    let vault := match d with AtoB => vault_a | BtoA => vault_b end in
    same_mint w vault dest /\
    curve_withdraw_single (st_curve s) n (balance w vault_a) (balance w vault_b) (supply w mint) d (st_fees s)
      = Val burnt /\
    (fee = source /\ charge = 0 \/ fee <> source /\ owner_withdraw_fee (st_fees s) burnt = Val charge) /\
    0 <= burnt /\ 0 <= charge /\ 0 < burnt + charge <= mp /\ 0 <= n /\
    ledger_change w w'
      (fun k => only_at fee k charge - only_at source k (burnt + charge) + only_at dest k n - only_at vault k n)
      (fun k => - only_at mint k burnt)
      [source; fee; mint; vault; dest] [source; vault].
Proof. exact withdraw_single_effect. Qed.
Print Assumptions C44_withdraw_single.
Example C44_case :
  let ks := [301; 302; 403; 303; 304; 111; 112] in
  let r := exec ex_env [901] ex_w2 (WithdrawSingle [300; auth 300; 901; 403; 304; 301; 302; 111; 303; TOKEN_PROGRAM_ID] 500 100000000) in
  bals (Ok ex_w2) ks = [7000; 2000; 1000000000; 0; 1000000000; 100000; 50000] /\
  bals r ks = [6500; 2000; 961692307; 1915384; 959776923; 100500; 50000].
Proof. vm_compute. split; reflexivity. Qed.

(** C47.  Accounts beyond the ten declared ones (such as a host fee account) have
    no influence; by [C02_swap_moves_the_quote] everything minted goes to the ninth account,
    which by [C37_swap_accounts] is the recorded fee account. *)
Theorem C47_extra_accounts_are_ignored : forall e signers w accounts ain mout,
  exec e signers w (Swap accounts ain mout) = exec e signers w (Swap (firstn 10 accounts) ain mout).
Proof. exact swap_ignores_extra. Qed.
Print Assumptions C47_extra_accounts_are_ignored.
Example C47_case :
  let ks := [303; 304; 403] in
  bals (exec ex_env [901] ex_w2 (Swap [300; auth 300; 901; 111; 301; 302; 112; 403; 303; TOKEN_PROGRAM_ID; 304] 1000 2)) ks
  = [1458174; 1000000000; 1001458174].
Proof. vm_compute. reflexivity. Qed.

