(** processor.rs and constraints.rs: the instruction handlers.

    An [AccountInfo] is represented by its key; its owner and data are looked up
    in the ledger.  The first arguments of every handler are the environment
    (program-derived addresses, compile-time constraints), the keys that signed
    the transaction, the ledger, and the list of account keys passed in. *)
From Verif Require Import Ints Fees LinearCurve SwapCurve Codec Token.

(** Compile-time constraints: constraints.rs 22-29 (SwapConstraints).
    [owner_key] is [None] when the string does not parse as a key. *)
Record swap_constraints : Type := mk_constraints {
  sc_owner_key : option Z;
  sc_valid_curve_tags : list Z;
  sc_fees : fees
}.

(** [find_pda k] = [Pubkey::find_program_address(&[k], program_id)], [None] when it
    panics for lack of a usable bump;
    [create_pda k b] = [Pubkey::create_program_address(&[k, &[b]], program_id)]. *)
Record env : Type := mk_env {
  find_pda : Z -> option (Z * Z);
  create_pda : Z -> Z -> option Z;
  constraints : option swap_constraints
}.

(** constraints.rs 33-43 *)
Definition validate_curve_type (sc : swap_constraints) (c : curve) : result unit :=
  if mem (curve_tag c) (sc_valid_curve_tags sc) then Ok tt
  else Err (ESwap UnsupportedCurveType).

(** constraints.rs 46-60 *)
Definition constraints_validate_fees (sc : swap_constraints) (f : fees) : result unit :=
  let g := sc_fees sc in
  if (trade_fee_num g <=? trade_fee_num f)
     && (trade_fee_den f =? trade_fee_den g)
     && (owner_trade_fee_num g <=? owner_trade_fee_num f)
     && (owner_trade_fee_den f =? owner_trade_fee_den g)
     && (owner_withdraw_fee_num g <=? owner_withdraw_fee_num f)
     && (owner_withdraw_fee_den f =? owner_withdraw_fee_den g)
     && (host_fee_num f =? host_fee_num g)
     && (host_fee_den f =? host_fee_den g)
  then Ok tt
  else Err (ESwap InvalidFee).

(** constraints.rs 63-77: the production constraints for a given owner *)
Definition production_constraints (owner : option Z) : swap_constraints :=
  mk_constraints owner [1; 0] (mk_fees 0 10000 5 10000 0 0 20 100).

(** 31-41 *)
Definition unpack_token_account (w : world) (k token_program : Z) : result token_account :=
  if negb (a_owner (w k) =? token_program) then Err (ESwap IncorrectTokenProgramId)
  else match a_data (w k) with
       | DToken t => Ok t
       | _ => Err (ESwap ExpectedAccount)
       end.

(** 44-54 *)
Definition unpack_mint (w : world) (k token_program : Z) : result mint_account :=
  if negb (a_owner (w k) =? token_program) then Err (ESwap IncorrectTokenProgramId)
  else match a_data (w k) with
       | DMint m => Ok m
       | _ => Err (ESwap ExpectedMint)
       end.

(** 57-64 *)
Definition authority_id (e : env) (swap bump : Z) : result Z :=
  match create_pda e swap bump with
  | Some k => Ok k
  | None => Err (ESwap InvalidProgramAddress)
  end.

(** Common part of [invoke_signed] (67-147): the instruction builders check the
    token program id; the runtime derives the program address for the seeds
    [swap, bump] and grants it signer privilege besides the transaction's
    signers. *)
Definition cpi_signers (e : env) (signers : list Z) (swap bump token_program : Z)
    : result (list Z) :=
  do! _ := guard (negb (token_program =? TOKEN_PROGRAM_ID)) EIncorrectProgramId in
  match create_pda e swap bump with
  | Some a => Ok (a :: signers)
  | None => Err ERuntime
  end.

(** 67-94 *)
Definition token_burn (e : env) (signers : list Z) (w : world)
    (swap token_program burn_account mint authority bump amount : Z) : result world :=
  do! signed := cpi_signers e signers swap bump token_program in
  spl_burn w signed burn_account mint authority amount.

(** 97-119 *)
Definition token_mint_to (e : env) (signers : list Z) (w : world)
    (swap token_program mint destination authority bump amount : Z) : result world :=
  do! signed := cpi_signers e signers swap bump token_program in
  spl_mint_to w signed mint destination authority amount.

(** 122-147 *)
Definition token_transfer (e : env) (signers : list Z) (w : world)
    (swap token_program source destination authority bump amount : Z) : result world :=
  do! signed := cpi_signers e signers swap bump token_program in
  spl_transfer w signed source destination authority amount.

(** 1052-1054; to_u128 (1048-1050) never fails *)
Definition to_u64 (x : Z) : result Z :=
  if x <=? u64_max then Ok x else Err (ESwap ConversionFailure).

(** 150-199 *)
Definition check_accounts (e : env) (w : world) (s : swap_state)
    (swap authority token_a token_b pool_mint token_program : Z)
    (user_a user_b fee_account : option Z) : result unit :=
  do! _ := guard (negb (a_owner (w swap) =? PROGRAM_ID)) EIncorrectProgramId in
  do! auth := authority_id e swap (st_bump_seed s) in
  do! _ := guard (negb (authority =? auth)) (ESwap InvalidProgramAddress) in
  do! _ := guard (negb (token_a =? st_token_a s)) (ESwap IncorrectSwapAccount) in
  do! _ := guard (negb (token_b =? st_token_b s)) (ESwap IncorrectSwapAccount) in
  do! _ := guard (negb (pool_mint =? st_pool_mint s)) (ESwap IncorrectPoolMint) in
  do! _ := guard (negb (token_program =? st_token_program_id s)) (ESwap IncorrectTokenProgramId) in
  do! _ := guard (optZ_eqb user_a token_a) (ESwap InvalidInput) in
  do! _ := guard (optZ_eqb user_b token_b) (ESwap InvalidInput) in
  match fee_account with
  | Some k => guard (negb (k =? st_pool_fee_account s)) (ESwap IncorrectFeeAccount)
  | None => Ok tt
  end.

(** 202-320.  Writing the pool account is rejected by the runtime unless this
    program owns it. *)
Definition process_initialize (e : env) (signers : list Z) (w : world)
    (f : fees) (c : curve) (accounts : list Z) : result world :=
  match accounts with
  | swap :: authority :: token_a_k :: token_b_k :: pool_mint_k :: fee_k :: destination_k
      :: token_program :: _ =>
      do! _ := guard (swap_is_initialized (raw_of (a_data (w swap)))) (ESwap AlreadyInUse) in
      do! (swap_authority, bump_seed) :=
        match find_pda e swap with Some r => Ok r | None => Err EPanic end in
      do! _ := guard (negb (authority =? swap_authority)) (ESwap InvalidProgramAddress) in
      do! token_a := unpack_token_account w token_a_k token_program in
      do! token_b := unpack_token_account w token_b_k token_program in
      do! fee_account := unpack_token_account w fee_k token_program in
      do! destination := unpack_token_account w destination_k token_program in
      do! pool_mint := unpack_mint w pool_mint_k token_program in
      do! _ := guard (negb (authority =? t_owner token_a)) (ESwap InvalidOwner) in
      do! _ := guard (negb (authority =? t_owner token_b)) (ESwap InvalidOwner) in
      do! _ := guard (authority =? t_owner destination) (ESwap InvalidOutputOwner) in
      do! _ := guard (authority =? t_owner fee_account) (ESwap InvalidOutputOwner) in
      do! _ := guard (negb (optZ_eqb (m_authority pool_mint) authority)) (ESwap InvalidOwner) in
      do! _ := guard (t_mint token_a =? t_mint token_b) (ESwap RepeatedMint) in
      do! _ := curve_validate_supply c (t_amount token_a) (t_amount token_b) in
      do! _ := guard (is_some (t_delegate token_a)) (ESwap InvalidDelegate) in
      do! _ := guard (is_some (t_delegate token_b)) (ESwap InvalidDelegate) in
      do! _ := guard (is_some (t_close_authority token_a)) (ESwap InvalidCloseAuthority) in
      do! _ := guard (is_some (t_close_authority token_b)) (ESwap InvalidCloseAuthority) in
      do! _ := guard (negb (m_supply pool_mint =? 0)) (ESwap InvalidSupply) in
      do! _ := guard (is_some (m_freeze_authority pool_mint)) (ESwap InvalidFreezeAuthority) in
      do! _ := guard (negb (pool_mint_k =? t_mint fee_account)) (ESwap IncorrectPoolMint) in
      do! _ :=
        match constraints e with
        | None => Ok tt
        | Some sc =>
            do! owner_key :=
              match sc_owner_key sc with Some k => Ok k | None => Err (ESwap InvalidOwner) end in
            do! _ := guard (negb (t_owner fee_account =? owner_key)) (ESwap InvalidOwner) in
            do! _ := validate_curve_type sc c in
            constraints_validate_fees sc f
        end in
      do! _ := fees_validate f in
      do! _ := curve_validate c in
      do! initial_amount := to_u64 (new_pool_supply c) in
      do! w1 := token_mint_to e signers w swap token_program pool_mint_k destination_k
                              authority bump_seed initial_amount in
      do! bytes :=
        swap_pack (mk_swap_state true bump_seed token_program token_a_k token_b_k pool_mint_k
                                 (t_mint token_a) (t_mint token_b) fee_k f c)
                  (raw_of (a_data (w1 swap))) in
      do! _ := guard (negb (a_owner (w1 swap) =? PROGRAM_ID)) ERuntime in
      Ok (upd w1 swap (mk_account PROGRAM_ID (DRaw bytes)))
  | _ => Err ENotEnoughAccountKeys
  end.

(** 438-476: the pool tokens for the owner fee, split with an optional host *)
Definition mint_owner_fee (e : env) (signers : list Z) (w1 : world) (s : swap_state)
    (swap authority pool_mint pool_fee token_program : Z) (rest : list Z)
    (pool_token_amount : Z) : result world :=
  if 0 <? pool_token_amount then
    do! (w2, amount) :=
      match rest with
      | host :: _ =>
          do! host_account := unpack_token_account w1 host (st_token_program_id s) in
          do! _ := guard (negb (pool_mint =? t_mint host_account)) (ESwap IncorrectPoolMint) in
          do! hf := ok_or (host_fee (st_fees s) pool_token_amount)
                          (ESwap FeeCalculationFailure) in
          if 0 <? hf then
            do! amount := ok_or (csub pool_token_amount hf) (ESwap FeeCalculationFailure) in
            do! hf64 := to_u64 hf in
            do! w2 := token_mint_to e signers w1 swap token_program pool_mint host authority
                                    (st_bump_seed s) hf64 in
            Ok (w2, amount)
          else Ok (w1, pool_token_amount)
      | [] => Ok (w1, pool_token_amount)
      end in
    do! amount64 := to_u64 amount in
    token_mint_to e signers w2 swap token_program pool_mint pool_fee authority
                  (st_bump_seed s) amount64
  else Ok w1.

(** 323-489 *)
Definition process_swap (e : env) (signers : list Z) (w : world)
    (amount_in minimum_amount_out : Z) (accounts : list Z) : result world :=
  match accounts with
  | swap :: authority :: user_transfer_authority :: source :: swap_source :: swap_destination
      :: destination :: pool_mint_k :: pool_fee :: token_program :: rest =>
      do! _ := guard (negb (a_owner (w swap) =? PROGRAM_ID)) EIncorrectProgramId in
      do! s := swap_unpack (raw_of (a_data (w swap))) in
      do! auth := authority_id e swap (st_bump_seed s) in
      do! _ := guard (negb (authority =? auth)) (ESwap InvalidProgramAddress) in
      do! _ := guard (negb ((swap_source =? st_token_a s) || (swap_source =? st_token_b s)))
                     (ESwap IncorrectSwapAccount) in
      do! _ := guard (negb ((swap_destination =? st_token_a s)
                            || (swap_destination =? st_token_b s)))
                     (ESwap IncorrectSwapAccount) in
      do! _ := guard (swap_source =? swap_destination) (ESwap InvalidInput) in
      do! _ := guard (swap_source =? source) (ESwap InvalidInput) in
      do! _ := guard (swap_destination =? destination) (ESwap InvalidInput) in
      do! _ := guard (negb (pool_mint_k =? st_pool_mint s)) (ESwap IncorrectPoolMint) in
      do! _ := guard (negb (pool_fee =? st_pool_fee_account s)) (ESwap IncorrectFeeAccount) in
      do! _ := guard (negb (token_program =? st_token_program_id s))
                     (ESwap IncorrectTokenProgramId) in
      do! source_account := unpack_token_account w swap_source (st_token_program_id s) in
      do! dest_account := unpack_token_account w swap_destination (st_token_program_id s) in
      do! pool_mint := unpack_mint w pool_mint_k (st_token_program_id s) in
      let d := if swap_source =? st_token_a s then AtoB else BtoA in
      do! r := ok_or (curve_swap (st_curve s) amount_in (t_amount source_account)
                                 (t_amount dest_account) d (st_fees s))
                     (ESwap ZeroTradingTokens) in
      do! _ := guard (destination_amount_swapped r <? minimum_amount_out)
                     (ESwap ExceededSlippage) in
      let (swap_a, swap_b) :=
        match d with
        | AtoB => (new_swap_source_amount r, new_swap_destination_amount r)
        | BtoA => (new_swap_destination_amount r, new_swap_source_amount r)
        end in
      do! src64 := to_u64 (source_amount_swapped r) in
      do! w1 := token_transfer e signers w swap token_program source swap_source
                               user_transfer_authority (st_bump_seed s) src64 in
      do! pool_token_amount :=
        ok_or (curve_withdraw_single (st_curve s) (owner_fee r) swap_a swap_b
                                     (m_supply pool_mint) d (st_fees s))
              (ESwap FeeCalculationFailure) in
      do! w2 := mint_owner_fee e signers w1 s swap authority pool_mint_k pool_fee
                               token_program rest pool_token_amount in
      do! dst64 := to_u64 (destination_amount_swapped r) in
      token_transfer e signers w2 swap token_program swap_destination destination authority
                     (st_bump_seed s) dst64
  | _ => Err ENotEnoughAccountKeys
  end.

(** 492-595 *)
Definition process_deposit_all (e : env) (signers : list Z) (w : world)
    (pool_token_amount0 maximum_a maximum_b : Z) (accounts : list Z) : result world :=
  match accounts with
  | swap :: authority :: user_transfer_authority :: source_a :: source_b :: token_a_k
      :: token_b_k :: pool_mint_k :: dest :: token_program :: _ =>
      do! s := swap_unpack (raw_of (a_data (w swap))) in
      do! _ := guard (negb (allows_deposits (st_curve s))) (ESwap UnsupportedCurveOperation) in
      do! _ := check_accounts e w s swap authority token_a_k token_b_k pool_mint_k token_program
                              (Some source_a) (Some source_b) None in
      do! token_a := unpack_token_account w token_a_k (st_token_program_id s) in
      do! token_b := unpack_token_account w token_b_k (st_token_program_id s) in
      do! pool_mint := unpack_mint w pool_mint_k (st_token_program_id s) in
      let (pool_token_amount, pool_mint_supply) :=
        if 0 <? m_supply pool_mint then (pool_token_amount0, m_supply pool_mint)
        else (new_pool_supply (st_curve s), new_pool_supply (st_curve s)) in
      do! (ra, rb) :=
        ok_or (pool_tokens_to_trading_tokens (st_curve s) pool_token_amount pool_mint_supply
                                             (t_amount token_a) (t_amount token_b) Ceiling)
              (ESwap ZeroTradingTokens) in
      do! a := to_u64 ra in
      do! _ := guard (maximum_a <? a) (ESwap ExceededSlippage) in
      do! _ := guard (a =? 0) (ESwap ZeroTradingTokens) in
      do! b := to_u64 rb in
      do! _ := guard (maximum_b <? b) (ESwap ExceededSlippage) in
      do! _ := guard (b =? 0) (ESwap ZeroTradingTokens) in
      do! p := to_u64 pool_token_amount in
      do! w1 := token_transfer e signers w swap token_program source_a token_a_k
                               user_transfer_authority (st_bump_seed s) a in
      do! w2 := token_transfer e signers w1 swap token_program source_b token_b_k
                               user_transfer_authority (st_bump_seed s) b in
      token_mint_to e signers w2 swap token_program pool_mint_k dest authority (st_bump_seed s) p
  | _ => Err ENotEnoughAccountKeys
  end.

(** 598-722 *)
Definition process_withdraw_all (e : env) (signers : list Z) (w : world)
    (pool_token_amount0 minimum_a minimum_b : Z) (accounts : list Z) : result world :=
  match accounts with
  | swap :: authority :: user_transfer_authority :: pool_mint_k :: source :: token_a_k
      :: token_b_k :: dest_a :: dest_b :: pool_fee :: token_program :: _ =>
      do! s := swap_unpack (raw_of (a_data (w swap))) in
      do! _ := check_accounts e w s swap authority token_a_k token_b_k pool_mint_k token_program
                              (Some dest_a) (Some dest_b) (Some pool_fee) in
      do! token_a := unpack_token_account w token_a_k (st_token_program_id s) in
      do! token_b := unpack_token_account w token_b_k (st_token_program_id s) in
      do! pool_mint := unpack_mint w pool_mint_k (st_token_program_id s) in
      do! withdraw_fee :=
        (if pool_fee =? source then Ok 0
         else ok_or (owner_withdraw_fee (st_fees s) pool_token_amount0)
                    (ESwap FeeCalculationFailure)) in
      do! pool_token_amount :=
        ok_or (csub pool_token_amount0 withdraw_fee) (ESwap CalculationFailure) in
      do! (ra, rb) :=
        ok_or (pool_tokens_to_trading_tokens (st_curve s) pool_token_amount (m_supply pool_mint)
                                             (t_amount token_a) (t_amount token_b) Floor)
              (ESwap ZeroTradingTokens) in
      do! a64 := to_u64 ra in
      let a := Z.min (t_amount token_a) a64 in
      do! _ := guard (a <? minimum_a) (ESwap ExceededSlippage) in
      do! _ := guard ((a =? 0) && negb (t_amount token_a =? 0)) (ESwap ZeroTradingTokens) in
      do! b64 := to_u64 rb in
      let b := Z.min (t_amount token_b) b64 in
      do! _ := guard (b <? minimum_b) (ESwap ExceededSlippage) in
      do! _ := guard ((b =? 0) && negb (t_amount token_b =? 0)) (ESwap ZeroTradingTokens) in
      do! w1 :=
        (if 0 <? withdraw_fee then
           do! fee64 := to_u64 withdraw_fee in
           token_transfer e signers w swap token_program source pool_fee
                          user_transfer_authority (st_bump_seed s) fee64
         else Ok w) in
      do! p64 := to_u64 pool_token_amount in
      do! w2 := token_burn e signers w1 swap token_program source pool_mint_k
                           user_transfer_authority (st_bump_seed s) p64 in
      do! w3 :=
        (if 0 <? a then
           token_transfer e signers w2 swap token_program token_a_k dest_a authority
                          (st_bump_seed s) a
         else Ok w2) in
      if 0 <? b then
        token_transfer e signers w3 swap token_program token_b_k dest_b authority
                       (st_bump_seed s) b
      else Ok w3
  | _ => Err ENotEnoughAccountKeys
  end.

(** 725-838 *)
Definition process_deposit_single (e : env) (signers : list Z) (w : world)
    (source_token_amount minimum_pool_token_amount : Z) (accounts : list Z) : result world :=
  match accounts with
  | swap :: authority :: user_transfer_authority :: source :: token_a_k :: token_b_k
      :: pool_mint_k :: destination :: token_program :: _ =>
      do! s := swap_unpack (raw_of (a_data (w swap))) in
      do! source_account := unpack_token_account w source (st_token_program_id s) in
      do! token_a := unpack_token_account w token_a_k (st_token_program_id s) in
      do! token_b := unpack_token_account w token_b_k (st_token_program_id s) in
      do! d :=
        (if t_mint source_account =? t_mint token_a then Ok AtoB
         else if t_mint source_account =? t_mint token_b then Ok BtoA
         else Err (ESwap IncorrectSwapAccount)) in
      let (source_a, source_b) :=
        match d with
        | AtoB => (Some source, None)
        | BtoA => (None, Some source)
        end in
      do! _ := check_accounts e w s swap authority token_a_k token_b_k pool_mint_k token_program
                              source_a source_b None in
      do! pool_mint := unpack_mint w pool_mint_k (st_token_program_id s) in
      do! amount :=
        (if 0 <? m_supply pool_mint then
           ok_or (curve_deposit_single (st_curve s) source_token_amount (t_amount token_a)
                                       (t_amount token_b) (m_supply pool_mint) d (st_fees s))
                 (ESwap ZeroTradingTokens)
         else Ok (new_pool_supply (st_curve s))) in
      do! p := to_u64 amount in
      do! _ := guard (p <? minimum_pool_token_amount) (ESwap ExceededSlippage) in
      do! _ := guard (p =? 0) (ESwap ZeroTradingTokens) in
      do! w1 :=
        match d with
        | AtoB =>
            token_transfer e signers w swap token_program source token_a_k
                           user_transfer_authority (st_bump_seed s) source_token_amount
        | BtoA =>
            token_transfer e signers w swap token_program source token_b_k
                           user_transfer_authority (st_bump_seed s) source_token_amount
        end in
      token_mint_to e signers w1 swap token_program pool_mint_k destination authority
                    (st_bump_seed s) p
  | _ => Err ENotEnoughAccountKeys
  end.

(** 841-977 *)
Definition process_withdraw_single (e : env) (signers : list Z) (w : world)
    (destination_token_amount maximum_pool_token_amount : Z) (accounts : list Z)
    : result world :=
  match accounts with
  | swap :: authority :: user_transfer_authority :: pool_mint_k :: source :: token_a_k
      :: token_b_k :: destination :: pool_fee :: token_program :: _ =>
      do! s := swap_unpack (raw_of (a_data (w swap))) in
      do! destination_account := unpack_token_account w destination (st_token_program_id s) in
      do! token_a := unpack_token_account w token_a_k (st_token_program_id s) in
      do! token_b := unpack_token_account w token_b_k (st_token_program_id s) in
      do! d :=
        (if t_mint destination_account =? t_mint token_a then Ok AtoB
         else if t_mint destination_account =? t_mint token_b then Ok BtoA
         else Err (ESwap IncorrectSwapAccount)) in
      let (destination_a, destination_b) :=
        match d with
        | AtoB => (Some destination, None)
        | BtoA => (None, Some destination)
        end in
      do! _ := check_accounts e w s swap authority token_a_k token_b_k pool_mint_k token_program
                              destination_a destination_b (Some pool_fee) in
      do! pool_mint := unpack_mint w pool_mint_k (st_token_program_id s) in
      do! burn_amount :=
        ok_or (curve_withdraw_single (st_curve s) destination_token_amount (t_amount token_a)
                                     (t_amount token_b) (m_supply pool_mint) d (st_fees s))
              (ESwap ZeroTradingTokens) in
      do! withdraw_fee :=
        (if pool_fee =? source then Ok 0
         else ok_or (owner_withdraw_fee (st_fees s) burn_amount)
                    (ESwap FeeCalculationFailure)) in
      do! pool_token_amount :=
        ok_or (add_in u128_max burn_amount withdraw_fee) (ESwap CalculationFailure) in
      do! p64 := to_u64 pool_token_amount in
      do! _ := guard (maximum_pool_token_amount <? p64) (ESwap ExceededSlippage) in
      do! _ := guard (pool_token_amount =? 0) (ESwap ZeroTradingTokens) in
      do! w1 :=
        (if 0 <? withdraw_fee then
           do! fee64 := to_u64 withdraw_fee in
           token_transfer e signers w swap token_program source pool_fee
                          user_transfer_authority (st_bump_seed s) fee64
         else Ok w) in
      do! burn64 := to_u64 burn_amount in
      do! w2 := token_burn e signers w1 swap token_program source pool_mint_k
                           user_transfer_authority (st_bump_seed s) burn64 in
      match d with
      | AtoB =>
          token_transfer e signers w2 swap token_program token_a_k destination authority
                         (st_bump_seed s) destination_token_amount
      | BtoA =>
          token_transfer e signers w2 swap token_program token_b_k destination authority
                         (st_bump_seed s) destination_token_amount
      end
  | _ => Err ENotEnoughAccountKeys
  end.
