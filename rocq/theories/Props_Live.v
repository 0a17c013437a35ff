(** C80-C83: when requests go through, and who else can prevent that. *)
From Verif Require Import Ints Fees LinearCurve SwapCurve Codec Token Processor Api History Spec LedgerSpec CallSpec LiveSpec
  LinearProps HistoryFacts LedgerExamples HistoryExamples LiveFacts LiveWithdraw LiveDeposit LiveSingle LiveExamples.

(** C80.  A trade from the trader's own account goes through exactly if the curve gives a quote
    that meets the limit, the trader can pay it, the vault and the destination have room, and
    the owner's fee can be minted. *)
Theorem C80_swap_when : forall e signers w pool authority s user source ssrc sdst dest rest ain mout x,
  env_ok e -> reachable e w -> signers_ok e signers ->
  pool_at w pool s -> find_pda e pool = Some (authority, st_bump_seed s) ->
  is_u64 ain -> is_u64 mout -> In user signers -> single_signer w user -> single_signer w authority ->
  (ssrc = st_token_a s /\ sdst = st_token_b s \/ ssrc = st_token_b s /\ sdst = st_token_a s) ->
  thawed w ssrc -> thawed w sdst ->
  wallet w source user (vault_mint_of s ssrc) x ->
  feeless (st_fees s) \/ st_pool_mint s <> st_token_a_mint s /\ st_pool_mint s <> st_token_b_mint s ->
  let accounts := pool :: authority :: user :: source :: ssrc :: sdst :: dest
                    :: st_pool_mint s :: st_pool_fee_account s :: TOKEN_PROGRAM_ID :: rest in
  let d := if ssrc =? st_token_a s then AtoB else BtoA in
  (exists w', exec e signers w (Swap accounts ain mout) = Ok w') <->
  dest <> sdst /\
  exists r minted,
    curve_swap (st_curve s) ain (balance w ssrc) (balance w sdst) d (st_fees s) = Val r /\
    mout <= destination_amount_swapped r /\ source_amount_swapped r <= x /\
    balance w ssrc + source_amount_swapped r <= u64_max /\
    accepts w dest (vault_mint_of s sdst) (destination_amount_swapped r) /\
    curve_withdraw_single (st_curve s) (owner_fee r)
      (side_a d (new_swap_source_amount r) (new_swap_destination_amount r))
      (side_b d (new_swap_source_amount r) (new_swap_destination_amount r))
      (supply w (st_pool_mint s)) d (st_fees s) = Val minted /\
    (0 < minted -> accepts_new w (st_pool_fee_account s) (st_pool_mint s) minted).
Proof. exact swap_live. Qed.
Print Assumptions C80_swap_when.

(** C80 for linear pools: there is no fee, so only the quote, the four balances and the
    destination matter. *)
Theorem C80_linear_swap_when : forall e signers w pool authority s c user source ssrc sdst dest rest ain mout x,
  env_ok e -> reachable e w -> signers_ok e signers ->
  pool_at w pool s -> st_curve s = LinearPrice c -> find_pda e pool = Some (authority, st_bump_seed s) ->
  is_u64 ain -> is_u64 mout -> In user signers -> single_signer w user -> single_signer w authority ->
  (ssrc = st_token_a s /\ sdst = st_token_b s \/ ssrc = st_token_b s /\ sdst = st_token_a s) ->
  thawed w ssrc -> thawed w sdst ->
  wallet w source user (vault_mint_of s ssrc) x ->
  let accounts := pool :: authority :: user :: source :: ssrc :: sdst :: dest
                    :: st_pool_mint s :: st_pool_fee_account s :: TOKEN_PROGRAM_ID :: rest in
  let d := if ssrc =? st_token_a s then AtoB else BtoA in
  (exists w', exec e signers w (Swap accounts ain mout) = Ok w') <->
  dest <> sdst /\
  exists taken paid,
    linear_swap c ain (balance w ssrc) (balance w sdst) d = Val (taken, paid) /\
    mout <= paid <= balance w sdst /\ taken <= x /\
    balance w ssrc + taken <= u64_max /\ accepts w dest (vault_mint_of s sdst) paid.
Proof. exact linear_swap_live. Qed.
Print Assumptions C80_linear_swap_when.

(** On the example ledger: 600 units of token A against the constant-price pool, and two trades
    against the linear pool, the second asking for more than the quote. *)
Example C80_case :
  (exists w', exec ex_env [901] ex_w2 ex_buy = Ok w') /\
  bals (exec ex_env [901] ex_w2 ex_buy) [111; 301; 302; 112; 303] = [99400; 7600; 1806; 50194; 844984] /\
  wallet ex_w2 111 901 201 100000 /\ thawed ex_w2 301 /\ thawed ex_w2 302 /\
  single_signer ex_w2 901 /\ single_signer ex_w2 (auth 300) /\
  accepts_new ex_w2 303 403 844984 /\ accepts ex_w2 112 202 194 /\
  bals (exec ex_env [901] ex_w2 (Swap [100; auth 100; 901; 111; 101; 102; 112; 203; 103; TOKEN_PROGRAM_ID] 600 0))
    [111; 101; 102; 112] = [99400; 600; 4989; 50011] /\
  failed (exec ex_env [901] ex_w2 (Swap [100; auth 100; 901; 111; 101; 102; 112; 203; 103; TOKEN_PROGRAM_ID] 600 12)) = true.
Proof.
  split; [apply ok_spec; vm_compute; reflexivity |]. split; [vm_compute; reflexivity |].
  split; [eexists; split; [split; vm_compute; reflexivity | vm_compute; repeat split; discriminate] |].
  split; [eexists; split; [split; vm_compute; reflexivity | reflexivity] |].
  split; [eexists; split; [split; vm_compute; reflexivity | reflexivity] |].
  split; [intros (H & _); vm_compute in H; discriminate |].
  split; [intros (H & _); vm_compute in H; discriminate |].
  split.
  { split; [eexists; split; [split; vm_compute; reflexivity | vm_compute; repeat split; discriminate] |].
    split; [| vm_compute; discriminate]. intros t (_ & H). vm_compute in H. injection H as <-. reflexivity. }
  split; [eexists; split; [split; vm_compute; reflexivity | vm_compute; repeat split; discriminate] |].
  split; vm_compute; reflexivity.
Qed.

(** C81.  When a withdrawal from the holder's own pool-token account goes through. *)
Theorem C81_withdraw_when : forall e signers w pool authority s user source dest_a dest_b rest n ma mb x,
  env_ok e -> reachable e w -> signers_ok e signers ->
  pool_at w pool s -> find_pda e pool = Some (authority, st_bump_seed s) ->
  is_u64 n -> is_u64 ma -> is_u64 mb -> In user signers -> single_signer w user -> single_signer w authority ->
  thawed w (st_token_a s) -> thawed w (st_token_b s) ->
  wallet w source user (st_pool_mint s) x -> (forall t, token_at w source t -> t_native t = false) ->
  st_pool_mint s <> st_token_a_mint s -> st_pool_mint s <> st_token_b_mint s ->
  let accounts := pool :: authority :: user :: st_pool_mint s :: source :: st_token_a s :: st_token_b s
                    :: dest_a :: dest_b :: st_pool_fee_account s :: TOKEN_PROGRAM_ID :: rest in
  let bal_a := balance w (st_token_a s) in
  let bal_b := balance w (st_token_b s) in
  (exists w', exec e signers w (WithdrawAll accounts n ma mb) = Ok w') <->
  dest_a <> st_token_a s /\ dest_b <> st_token_b s /\ n <= x /\
  exists charge share_a share_b,
    (st_pool_fee_account s = source /\ charge = 0 \/
     st_pool_fee_account s <> source /\ owner_withdraw_fee (st_fees s) n = Val charge) /\
    charge <= n /\ n - charge <= supply w (st_pool_mint s) /\
    (0 < charge -> accepts w (st_pool_fee_account s) (st_pool_mint s) charge) /\
    pool_tokens_to_trading_tokens (st_curve s) (n - charge) (supply w (st_pool_mint s)) bal_a bal_b Floor
      = Val (share_a, share_b) /\
    share_a <= u64_max /\ share_b <= u64_max /\
    let a := Z.min bal_a share_a in let b := Z.min bal_b share_b in
    ma <= a /\ mb <= b /\ (a = 0 -> bal_a = 0) /\ (b = 0 -> bal_b = 0) /\
    (0 < a -> accepts w dest_a (st_token_a_mint s) a) /\ (0 < b -> accepts w dest_b (st_token_b_mint s) b).
Proof. exact withdraw_all_live. Qed.
Print Assumptions C81_withdraw_when.

(** C81.  When a two-sided deposit goes through. *)
Theorem C81_deposit_when : forall e signers w pool authority s user source_a source_b dest rest n ma mb xa xb,
  env_ok e -> reachable e w -> signers_ok e signers ->
  pool_at w pool s -> find_pda e pool = Some (authority, st_bump_seed s) ->
  is_u64 n -> is_u64 ma -> is_u64 mb -> In user signers -> single_signer w user -> single_signer w authority ->
  thawed w (st_token_a s) -> thawed w (st_token_b s) ->
  wallet w source_a user (st_token_a_mint s) xa -> wallet w source_b user (st_token_b_mint s) xb ->
  st_pool_mint s <> st_token_a_mint s -> st_pool_mint s <> st_token_b_mint s ->
  let accounts := pool :: authority :: user :: source_a :: source_b :: st_token_a s :: st_token_b s
                    :: st_pool_mint s :: dest :: TOKEN_PROGRAM_ID :: rest in
  let bal_a := balance w (st_token_a s) in
  let bal_b := balance w (st_token_b s) in
  let sup := supply w (st_pool_mint s) in
  let minted := if sup =? 0 then 10 ^ 9 else n in
  let outstanding := if sup =? 0 then 10 ^ 9 else sup in
  (exists w', exec e signers w (DepositAll accounts n ma mb) = Ok w') <->
  takes_deposits (st_curve s) /\
  exists a b,
    pool_tokens_to_trading_tokens (st_curve s) minted outstanding bal_a bal_b Ceiling = Val (a, b) /\
    a <> 0 /\ b <> 0 /\ a <= ma /\ b <= mb /\ a <= xa /\ b <= xb /\
    bal_a + a <= u64_max /\ bal_b + b <= u64_max /\
    accepts_new w dest (st_pool_mint s) minted.
Proof. exact deposit_all_live. Qed.
Print Assumptions C81_deposit_when.

(** C81.  When a one-sided withdrawal goes through. *)
Theorem C81_withdraw_single_when : forall e signers w pool authority s d user source dest rest n mp x,
  env_ok e -> reachable e w -> signers_ok e signers ->
  pool_at w pool s -> find_pda e pool = Some (authority, st_bump_seed s) ->
  is_u64 n -> is_u64 mp -> In user signers -> single_signer w user -> single_signer w authority ->
  thawed w (side_vault d s) -> (exists t, token_at w dest t /\ t_mint t = mint_on d s) ->
  wallet w source user (st_pool_mint s) x -> (forall t, token_at w source t -> t_native t = false) ->
  st_pool_mint s <> mint_on d s ->
  let accounts := pool :: authority :: user :: st_pool_mint s :: source :: st_token_a s :: st_token_b s
                    :: dest :: st_pool_fee_account s :: TOKEN_PROGRAM_ID :: rest in
  (exists w', exec e signers w (WithdrawSingle accounts n mp) = Ok w') <->
  dest <> side_vault d s /\
  exists burnt charge,
    curve_withdraw_single (st_curve s) n (balance w (st_token_a s)) (balance w (st_token_b s))
      (supply w (st_pool_mint s)) d (st_fees s) = Val burnt /\
    (st_pool_fee_account s = source /\ charge = 0 \/
     st_pool_fee_account s <> source /\ owner_withdraw_fee (st_fees s) burnt = Val charge) /\
    burnt + charge <= mp /\ burnt + charge <> 0 /\ burnt + charge <= x /\ burnt <= supply w (st_pool_mint s) /\
    (0 < charge -> accepts w (st_pool_fee_account s) (st_pool_mint s) charge) /\
    n <= balance w (side_vault d s) /\ accepts w dest (mint_on d s) n.
Proof. exact withdraw_single_live. Qed.
Print Assumptions C81_withdraw_single_when.

(** C81.  When a one-sided deposit goes through. *)
Theorem C81_deposit_single_when : forall e signers w pool authority s d user source dest rest n mp x,
  env_ok e -> reachable e w -> signers_ok e signers ->
  pool_at w pool s -> find_pda e pool = Some (authority, st_bump_seed s) ->
  is_u64 n -> is_u64 mp -> In user signers -> single_signer w user -> single_signer w authority ->
  thawed w (side_vault d s) -> wallet w source user (mint_on d s) x -> st_pool_mint s <> mint_on d s ->
  let accounts := pool :: authority :: user :: source :: st_token_a s :: st_token_b s
                    :: st_pool_mint s :: dest :: TOKEN_PROGRAM_ID :: rest in
  (exists w', exec e signers w (DepositSingle accounts n mp) = Ok w') <->
  exists minted,
    (if supply w (st_pool_mint s) =? 0 then Val (10 ^ 9) else
       curve_deposit_single (st_curve s) n (balance w (st_token_a s)) (balance w (st_token_b s))
         (supply w (st_pool_mint s)) d (st_fees s)) = Val minted /\
    mp <= minted /\ minted <> 0 /\ n <= x /\ balance w (side_vault d s) + n <= u64_max /\
    accepts_new w dest (st_pool_mint s) minted.
Proof. exact deposit_single_live. Qed.
Print Assumptions C81_deposit_single_when.

(** Half of the pool tokens of pool 300: the charge is 5 percent, the rest buys 3087 and 1029.
    One unit more of token A than that is refused. *)
Example C81_case :
  let leave ma := WithdrawAll [300; auth 300; 901; 403; 304; 301; 302; 111; 112; 303; TOKEN_PROGRAM_ID] 500000000 ma 0 in
  let enter n ma := DepositAll [300; auth 300; 901; 111; 112; 301; 302; 403; 304; TOKEN_PROGRAM_ID] n ma 1000 in
  bals (exec ex_env [901] ex_w2 (leave 3087)) [304; 303; 403; 111; 112] = [500000000; 25000000; 525000000; 103087; 51029] /\
  failed (exec ex_env [901] ex_w2 (leave 3088)) = true /\
  bals (exec ex_env [901] ex_w2 (enter 1000000 7)) [304; 403; 111; 112] = [1001000000; 1001000000; 99993; 49997] /\
  failed (exec ex_env [901] ex_w2 (enter 1000000 6)) = true /\
  wallet ex_w2 304 901 403 1000000000.
Proof.
  vm_compute. repeat split; try discriminate. eexists. repeat split; discriminate.
Qed.

(** C82, refuted: a trade and two withdrawals of user 901 all go through, until user 900 closes
    the (empty) fee account of the pool; nothing else changes and all three fail. *)
Theorem C82_others_block_refuted : exists e w k t w', env_ok e /\ reachable e w /\ step e w External w' /\
  token_at w k t /\ t_owner t = 900 /\ t_amount t = 0 /\ w' k = empty_account /\ (forall j, j <> k -> w' j = w j) /\
  Forall (fun i => (exists w1, exec e [901] w i = Ok w1) /\ ~ exists w1, exec e [901] w' i = Ok w1)
    [ex_buy; ex_leave; ex_leave_a].
Proof. exact fee_holder_blocks. Qed.
Print Assumptions C82_others_block_refuted.

(** C82: without a fee account, nobody can withdraw from a pool that charges for withdrawals. *)
Theorem C82_no_exit_all_partial : forall e signers w accounts n ma mb s,
  world_wf w ->
  pool_at w (nth 0 accounts 0) s -> owner_withdraw_fee_num (st_fees s) <> 0 ->
  (forall t, ~ token_at w (st_pool_fee_account s) t) -> 0 < n ->
  ~ exists w', exec e signers w (WithdrawAll accounts n ma mb) = Ok w'.
Proof. exact no_fee_account_all. Qed.
Print Assumptions C82_no_exit_all_partial.

(** The same for one-sided withdrawals, of any amount. *)
Theorem C82_no_exit_single_partial : forall e signers w accounts n mp s,
  world_wf w ->
  pool_at w (nth 0 accounts 0) s -> owner_withdraw_fee_num (st_fees s) <> 0 ->
  (forall t, ~ token_at w (st_pool_fee_account s) t) ->
  ~ exists w', exec e signers w (WithdrawSingle accounts n mp) = Ok w'.
Proof. exact no_fee_account_single. Qed.
Print Assumptions C82_no_exit_single_partial.

(** C82 for linear pools: whether a trade goes through depends on the pool, the two vaults and
    the accounts of the trader only, whatever has happened to the fee account and the pool mint. *)
Theorem C82_linear_unblocked_partial : forall e signers w w' pool authority s c user source ssrc sdst dest rest ain mout x,
  env_ok e -> reachable e w -> reachable e w' -> signers_ok e signers ->
  pool_at w pool s -> st_curve s = LinearPrice c -> find_pda e pool = Some (authority, st_bump_seed s) ->
  is_u64 ain -> is_u64 mout -> In user signers -> single_signer w user -> single_signer w authority ->
  (ssrc = st_token_a s /\ sdst = st_token_b s \/ ssrc = st_token_b s /\ sdst = st_token_a s) ->
  thawed w ssrc -> thawed w sdst ->
  wallet w source user (vault_mint_of s ssrc) x ->
  (forall k, In k [pool; authority; user; source; ssrc; sdst; dest] -> w' k = w k) ->
  let i := Swap (pool :: authority :: user :: source :: ssrc :: sdst :: dest
                    :: st_pool_mint s :: st_pool_fee_account s :: TOKEN_PROGRAM_ID :: rest) ain mout in
  (exists w1, exec e signers w i = Ok w1) <-> (exists w1, exec e signers w' i = Ok w1).
Proof. exact linear_swap_same. Qed.
Print Assumptions C82_linear_unblocked_partial.

Example C82_case :
  owner_withdraw_fee_num ex_fees <> 0 /\ (forall t, ~ token_at ex_closed 303 t) /\
  failed (exec ex_env [901] ex_closed ex_leave) = true /\
  (let w := upd ex_w2 103 empty_account in
   bals (exec ex_env [901] w (Swap [100; auth 100; 901; 111; 101; 102; 112; 203; 103; TOKEN_PROGRAM_ID] 600 0))
    [111; 101; 102; 112] = [99400; 600; 4989; 50011]).
Proof.
  split; [discriminate |]. split; [intros t (H & _); vm_compute in H; discriminate |].
  split; vm_compute; reflexivity.
Qed.

(** C83, refuted: a linear pool can be created whose collateral is the pool's own token.  Its
    creator is given 10^9 of them, and can take all token B out for some of those. *)
Theorem C83_own_token_refuted : exists e w pool s, env_ok e /\ reachable e w /\ pool_at w pool s /\
  st_pool_mint s = st_token_a_mint s /\
  exists signers i w', step e w (Instruction signers i) w' /\ 
    balance w (st_token_a s) = 0 /\ balance w (st_token_b s) = 5000 /\ balance w' (st_token_b s) = 0.
Proof. exact own_token. Qed.
Print Assumptions C83_own_token_refuted.

(** C83: if no account holds more than the supply of its mint, a pool that issues one of the
    tokens it trades starts with an empty vault of that token: token A of a linear pool or
    token B of a constant-price pool. *)
Theorem C83_own_token_empty_partial : forall e signers w i w',
  env_ok e -> world_wf w -> Forall is_pubkey (instr_accounts i) ->
  creates i -> exec e signers w i = Ok w' ->
  (forall k t, token_at w k t -> t_amount t <= supply w (t_mint t)) ->
  exists s, pool_at w' (named_pool i) s /\
    (st_pool_mint s = st_token_a_mint s ->
       (exists l, st_curve s = LinearPrice l) /\ balance w (st_token_a s) = 0) /\
    (st_pool_mint s = st_token_b_mint s ->
       (exists p, st_curve s = ConstantPrice p) /\ balance w (st_token_b s) = 0).
Proof. exact own_token_empty. Qed.
Print Assumptions C83_own_token_empty_partial.

(** The collision needs no unusual accounts. *)
Example C83_case :
  bals (exec ex_env [100] own_w0 ex_init1) [101; 102; 104; 203] = [0; 5000; 10 ^ 9; 10 ^ 9] /\
  bals (exec ex_env [901] own_w1 (Swap [100; auth 100; 901; 104; 101; 102; 112; 203; 103; TOKEN_PROGRAM_ID] 1000000000 5000))
    [104; 101; 102; 112] = [993500000; 6500000; 0; 5000].
Proof. vm_compute. auto. Qed.
