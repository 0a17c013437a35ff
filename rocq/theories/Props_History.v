(** Histories: C19, C20, C36, C39, C40, C45, C46, C48. *)
From Verif Require Import Tactics Ints Fees LinearCurve SwapCurve Codec Token Processor Api History Spec LedgerSpec.
From Verif Require Import HistoryFacts LiquidityFacts LedgerExamples HistoryExamples.

(** The ledger used in the examples is the result of a history: it satisfies the
    hypotheses of all theorems below. *)
Example history_case : env_ok ex_env /\ reachable ex_env ex_w2.
Proof. split; [exact ex_env_ok | exact ex_reachable]. Qed.

(** C19 as stated is false: when holders have burned all pool tokens of a linear
    pool, a single-sided deposit succeeds and mints 10^9 pool tokens. *)
Theorem C19_liquidity_refuted :  exists e w signers i w' s l,
  env_ok e /\ reachable e w /\ pool_at w (named_pool i) s /\ st_curve s = LinearPrice l /\ deposits i /\
  step e w (Instruction signers i) w' /\ supply w' (st_pool_mint s) = supply w (st_pool_mint s) + 10 ^ 9.
Proof. exact linear_deposit_possible. Qed.
Print Assumptions C19_liquidity_refuted.

(** C19 otherwise.  The case just shown is the only one: every other deposit and
    every withdrawal on a linear pool fails.  (Full statement: the conclusion would
    be [False].) *)
Theorem C19_liquidity_partial : forall e signers w i w' s l, world_wf w -> pool_at w (named_pool i) s -> st_curve s = LinearPrice l ->
  deposits i \/ withdraws i -> exec e signers w i = Ok w' ->
  (exists accounts n mp, i = DepositSingle accounts n mp) /\ supply w (st_pool_mint s) = 0.
Proof. exact linear_liquidity. Qed.
Print Assumptions C19_liquidity_partial.
(** With pool tokens in existence the same deposit is refused, as are the others. *)
Example C19_case :
  let ok i := match exec ex_env [901] ex_w2 i with Ok _ => true | Err _ => false end in
  ok (DepositSingle [100; auth 100; 901; 111; 101; 102; 203; 104; TOKEN_PROGRAM_ID] 1000 0) = false /\
  ok (DepositAll [100; auth 100; 901; 111; 112; 101; 102; 203; 104; TOKEN_PROGRAM_ID] 1000 2000 5000) = false /\
  ok (WithdrawAll [100; auth 100; 901; 203; 104; 101; 102; 111; 112; 103; TOKEN_PROGRAM_ID] 100000000 0 0) = false /\
  ok (WithdrawSingle [100; auth 100; 901; 203; 104; 101; 102; 112; 103; TOKEN_PROGRAM_ID] 500 100000000) = false.
Proof. vm_compute. repeat split; reflexivity. Qed.

(** C20.  In every reachable ledger a swap on a linear pool exchanges exactly the
    curve's quote for the whole amount offered and mints nothing. *)
Theorem C20_linear_pools_mint_nothing : forall e signers w accounts ain mout w' s l, env_ok e -> reachable e w ->
  exec e signers w (Swap accounts ain mout) = Ok w' ->
  pool_at w (nth 0 accounts 0) s -> st_curve s = LinearPrice l ->
  let source := nth 3 accounts 0 in let ssrc := nth 4 accounts 0 in let sdst := nth 5 accounts 0 in
  let dest := nth 6 accounts 0 in
  exists x y,
    linear_swap l ain (balance w ssrc) (balance w sdst) (if ssrc =? st_token_a s then AtoB else BtoA) = Val (x, y) /\
    (forall k, supply w' k = supply w k) /\
    (forall k, balance w' k = balance w k + only_at ssrc k x - only_at source k x + only_at dest k y
                              - only_at sdst k y).
Proof. exact linear_no_mint. Qed.
Print Assumptions C20_linear_pools_mint_nothing.
Example C20_case_linear :
  bals (exec ex_env [901] ex_w2 (Swap [100; auth 100; 901; 111; 101; 102; 112; 203; 103; TOKEN_PROGRAM_ID] 101 2))
       [101; 102; 203; 103; 111; 112] = [101; 4998; 1000000000; 0; 99899; 50002] /\
  linear_swap (mk_linear 1 2 50 1) 101 0 5000 AtoB = Val (101, 2).
Proof. vm_compute. split; reflexivity. Qed.

(** C36.  Whatever happens, a stored pool keeps every field. *)
Theorem C36_pool_state_never_changes : forall e w evs w' k s, env_ok e -> world_wf w -> history e w evs w' ->
  pool_at w k s -> pool_at w' k s.
Proof. exact history_pool_stays. Qed.
Print Assumptions C36_pool_state_never_changes.
Example C36_case : pool_at ex_w2 100 ex_pool1 /\ pool_at ex_w3 100 ex_pool1.
Proof. split; split; vm_compute; reflexivity. Qed.

(** C39.  In every step from a reachable ledger a vault keeps its owner (the pool's
    derived authority), its mint and the absence of delegate and close authority,
    and loses tokens only in a swap or withdrawal on its own pool. *)
Theorem C39_vaults_are_safe : forall e w ev w' k s v, env_ok e -> reachable e w -> step e w ev w' -> pool_at w k s -> vault_of_pool s v ->
  (exists authority mint, find_pda e k = Some (authority, st_bump_seed s) /\
     vault_ok w authority v mint /\ vault_ok w' authority v mint) /\
  (balance w' v < balance w v ->
     exists signers i, ev = Instruction signers i /\ pays_out i /\ named_pool i = k).
Proof. exact vault_step. Qed.
Print Assumptions C39_vaults_are_safe.
(** The trader, being the one who calls, cannot take from vault 101 by naming it
    as their source account. *)
Example C39_case :
  match exec ex_env [901] ex_w2 (Swap [300; auth 300; 901; 101; 301; 302; 112; 403; 303; TOKEN_PROGRAM_ID] 1000 2) with
  | Ok _ => False | Err _ => True end.
Proof. vm_compute. exact I. Qed.

(** C40.  The supply of a pool mint grows only in a swap or deposit on that pool ... *)
Theorem C40_only_own_instructions_mint : forall e w ev w' k s, env_ok e -> reachable e w -> step e w ev w' -> pool_at w k s ->
  supply w (st_pool_mint s) < supply w' (st_pool_mint s) ->
  exists signers i, ev = Instruction signers i /\ mints i /\ named_pool i = k.
Proof. exact supply_step. Qed.
Print Assumptions C40_only_own_instructions_mint.

(** C40.  ... and by exactly what is credited to the account named for it (whose
    balance moves by just that amount if it has no other role in the instruction). *)
Theorem C40_minted_amount_is_credited : forall e signers w i w' s, world_wf w -> exec e signers w i = Ok w' -> pool_at w (named_pool i) s -> mints i ->
  exists x, 0 <= x /\
    (forall k, supply w' k = supply w k + only_at (st_pool_mint s) k x) /\
    (~ In (mint_target i) (other_token_accounts i) ->
       balance w' (mint_target i) = balance w (mint_target i) + x).
Proof. exact minted_to. Qed.
Print Assumptions C40_minted_amount_is_credited.
Example C40_case :
  bals (exec ex_env [901] ex_w2 (DepositSingle [300; auth 300; 901; 112; 301; 302; 403; 304; TOKEN_PROGRAM_ID] 500 100))
       [403; 304] = [1000000000 + 114923076; 1000000000 + 114923076].
Proof. vm_compute. reflexivity. Qed.

(** C45 as stated is false: after all pool tokens have been burned, a deposit of
    zero tokens mints 10^9 pool tokens and takes nothing from anybody. *)
Theorem C45_nothing_for_nothing_refuted :  exists e w signers i w' s,
  env_ok e /\ reachable e w /\ pool_at w (named_pool i) s /\ deposits i /\
  step e w (Instruction signers i) w' /\
  balance w' (mint_target i) = balance w (mint_target i) + 10 ^ 9 /\
  forall k, k <> mint_target i -> balance w' k = balance w k.
Proof. exact free_pool_tokens. Qed.
Print Assumptions C45_nothing_for_nothing_refuted.

(** C45 otherwise.  While pool tokens exist, and in two-sided deposits always, a
    deposit that succeeds adds tokens to a vault of the pool.  (Full statement: without the
    hypothesis on the supply.) *)
Theorem C45_nothing_for_nothing_partial : forall e signers w i w' s, env_ok e -> reachable e w -> deposits i ->
  exec e signers w i = Ok w' -> pool_at w (named_pool i) s ->
  supply w (st_pool_mint s) <> 0 \/ (exists accounts n ma mb, i = DepositAll accounts n ma mb) ->
  exists v, vault_of_pool s v /\ balance w v < balance w' v.
Proof. exact deposit_pays. Qed.
Print Assumptions C45_nothing_for_nothing_partial.
(** A deposit of zero tokens into the constant-price pool, before and after all
    its pool tokens are burned. *)
Example C45_case :
  let i := DepositSingle [300; auth 300; 901; 112; 301; 302; 403; 304; TOKEN_PROGRAM_ID] 0 0 in
  bals (exec ex_env [901] ex_w2 i) [403] = [] /\
  bals (exec ex_env [901] (burn_all ex_w2 304 403) i) [403; 304; 112] = [1000000000; 1000000000; 50000].
Proof. vm_compute. split; reflexivity. Qed.

(** C46.  An instruction naming another pool leaves this pool's state alone, takes
    nothing from its vaults and mints none of its pool tokens. *)
Theorem C46_pools_are_isolated : forall e signers w i w' k s, env_ok e -> reachable e w -> signers_ok e signers ->
  Forall is_pubkey (instr_accounts i) -> exec e signers w i = Ok w' -> pool_at w k s -> named_pool i <> k ->
  pool_at w' k s /\ balance w (st_token_a s) <= balance w' (st_token_a s) /\
  balance w (st_token_b s) <= balance w' (st_token_b s) /\
  supply w' (st_pool_mint s) <= supply w (st_pool_mint s).
Proof. exact pools_isolated. Qed.
Print Assumptions C46_pools_are_isolated.
(** Naming pool 300 but passing the mint of pool 100. *)
Example C46_case :
  match exec ex_env [901] ex_w2 (DepositSingle [300; auth 300; 901; 112; 301; 302; 203; 104; TOKEN_PROGRAM_ID] 500 100) with
  | Ok _ => False | Err _ => True end.
Proof. vm_compute. exact I. Qed.

(** C48.  Every pool of a reachable ledger is in good order: a linear pool without
    fees and with a valid slope or a constant-price pool with a non-zero price and
    proper fees ([config_ok]), with its vaults, mint and authority in place. *)
Theorem C48_pools_are_in_order : forall e w k s, env_ok e -> reachable e w -> pool_at w k s -> pool_ok e w k s.
Proof. exact reachable_pool. Qed.
Print Assumptions C48_pools_are_in_order.
Example C48_case : pool_ok ex_env ex_w2 100 ex_pool1.
Proof. apply C48_pools_are_in_order; [exact ex_env_ok | exact ex_reachable |]. split; vm_compute; reflexivity. Qed.

