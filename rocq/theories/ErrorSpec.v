(** What the error of a failed instruction says: for every instruction and error a
    fact that must hold when that error is returned ([False]: never returned). *)
From Verif Require Import Ints Fees LinearCurve SwapCurve Codec Token Processor Api History Spec LedgerSpec CallSpec.

(** The token program refuses one of the calls after accepting those before it. *)
Definition refused (signed : list Z) (w : world) (l : list call) : Prop :=
  exists l1 c l2 w1, l = l1 ++ c :: l2 /\ calls_ok signed w l1 w1 /\ forall w2, ~ call_ok signed w1 c w2.

(** One of the accounts that have to be token accounts, or the mint, belongs to
    another program or is something else. *)
Definition foreign (w : world) (program : Z) (ks : list Z) : Prop :=
  exists k, In k ks /\ a_owner (w k) <> program.
Definition no_token (w : world) (ks : list Z) : Prop :=
  exists k, In k ks /\ forall t, a_data (w k) <> DToken t.
Definition no_mint (w : world) (k : Z) : Prop := forall m, a_data (w k) <> DMint m.

(** An argument is outside of 64 bits (impossible on the wire). *)
Definition bad_argument (i : instr) : Prop := exists x, In x (instr_args i) /\ ~ is_u64 x.

(** The withdrawal fee on [n] pool tokens taken from account [source]. *)
Definition exit_fee (s : swap_state) (source n : Z) : outcome Z :=
  if st_pool_fee_account s =? source then Val 0 else owner_withdraw_fee (st_fees s) n.

(** ** Swap *)
Definition swap_fault (e : env) (signers : list Z) (w : world) (s : swap_state)
    (accounts : list Z) (ain mout : Z) (err : error) : Prop :=
  match accounts with
  | pool :: authority :: user :: source :: ssrc :: sdst :: dest :: mint :: fee :: program :: _ =>
      let d := if ssrc =? st_token_a s then AtoB else BtoA in
      let quote q := exists ta tb, token_at w ssrc ta /\ token_at w sdst tb /\
        curve_swap (st_curve s) ain (t_amount ta) (t_amount tb) d (st_fees s) = q in
      let charge r q := exists pm, mint_at w mint pm /\
        curve_withdraw_single (st_curve s) (owner_fee r)
          (side_a d (new_swap_source_amount r) (new_swap_destination_amount r))
          (side_b d (new_swap_source_amount r) (new_swap_destination_amount r))
          (m_supply pm) d (st_fees s) = q in
      match err with
      | ERuntime => bad_argument (Swap accounts ain mout)
      | EMissingRequiredSignature => ~ In user signers
      | ESwap InvalidProgramAddress => create_pda e pool (st_bump_seed s) <> Some authority
      | ESwap IncorrectSwapAccount =>
          (ssrc <> st_token_a s /\ ssrc <> st_token_b s) \/ (sdst <> st_token_a s /\ sdst <> st_token_b s)
      | ESwap InvalidInput => ssrc = sdst \/ ssrc = source \/ sdst = dest
      | ESwap IncorrectPoolMint => mint <> st_pool_mint s
      | ESwap IncorrectFeeAccount => fee <> st_pool_fee_account s
      | ESwap IncorrectTokenProgramId =>
          program <> TOKEN_PROGRAM_ID \/ foreign w TOKEN_PROGRAM_ID [ssrc; sdst; mint]
      | ESwap ExpectedAccount => no_token w [ssrc; sdst]
      | ESwap ExpectedMint => no_mint w mint
      | ESwap ZeroTradingTokens => quote Non
      | ESwap ExceededSlippage => exists r, quote (Val r) /\ destination_amount_swapped r < mout
      | ESwap FeeCalculationFailure => exists r, quote (Val r) /\ charge r Non
      | ESwap ConversionFailure =>
          exists r, quote (Val r) /\ mout <= destination_amount_swapped r /\
            (u64_max < source_amount_swapped r \/ u64_max < destination_amount_swapped r \/
             exists minted, charge r (Val minted) /\ u64_max < minted)
      | EPanic => quote Panic \/ exists r, quote (Val r) /\ charge r Panic
      | EToken =>
          exists r, quote (Val r) /\ mout <= destination_amount_swapped r /\
            (refused (authority :: signers) w [CTransfer source ssrc user (source_amount_swapped r)] \/
             exists minted, charge r (Val minted) /\
               refused (authority :: signers) w
                 (CTransfer source ssrc user (source_amount_swapped r) ::
                  if_any minted (CMint mint fee authority minted) ++
                  [CTransfer sdst dest authority (destination_amount_swapped r)]))
      | _ => False
      end
  | _ => err = ENotEnoughAccountKeys \/ (err = ERuntime /\ bad_argument (Swap accounts ain mout))
  end.

(** ** Accounts of the liquidity instructions; [mine] are the user's accounts that
    face vault A and vault B, [fee] the fee account if the instruction takes one. *)
Definition account_fault (e : env) (w : world) (s : swap_state)
    (pool authority va vb mint program : Z) (mine_a mine_b fee : option Z) (err : swap_error) : Prop :=
  match err with
  | InvalidProgramAddress => create_pda e pool (st_bump_seed s) <> Some authority
  | IncorrectSwapAccount => va <> st_token_a s \/ vb <> st_token_b s
  | IncorrectPoolMint => mint <> st_pool_mint s
  | IncorrectTokenProgramId => program <> TOKEN_PROGRAM_ID
  | InvalidInput => mine_a = Some va \/ mine_b = Some vb
  | IncorrectFeeAccount => exists k, fee = Some k /\ k <> st_pool_fee_account s
  | _ => False
  end.

(** ** Two-sided deposit *)
Definition deposit_all_fault (e : env) (signers : list Z) (w : world) (s : swap_state)
    (accounts : list Z) (n ma mb : Z) (err : error) : Prop :=
  match accounts with
  | pool :: authority :: user :: source_a :: source_b :: va :: vb :: mint :: dest :: program :: _ =>
      let quote m q := exists ta tb pm, token_at w va ta /\ token_at w vb tb /\ mint_at w mint pm /\
        m = (if m_supply pm =? 0 then 10 ^ 9 else n) /\
        pool_tokens_to_trading_tokens (st_curve s) m (if m_supply pm =? 0 then 10 ^ 9 else m_supply pm)
          (t_amount ta) (t_amount tb) Ceiling = q in
      match err with
      | ERuntime => bad_argument (DepositAll accounts n ma mb)
      | EMissingRequiredSignature => ~ In user signers
      | ESwap UnsupportedCurveOperation => ~ takes_deposits (st_curve s)
      | ESwap ExpectedAccount => no_token w [va; vb]
      | ESwap ExpectedMint => no_mint w mint
      | ESwap ZeroTradingTokens =>
          exists m, quote m Non \/ exists a b, quote m (Val (a, b)) /\ (a = 0 \/ b = 0)
      | ESwap ExceededSlippage => exists m a b, quote m (Val (a, b)) /\ (ma < a \/ mb < b)
      | ESwap ConversionFailure => exists m a b, quote m (Val (a, b)) /\ (u64_max < a \/ u64_max < b)
      | EPanic => exists m, quote m Panic
      | EToken =>
          exists m a b, quote m (Val (a, b)) /\ a <= ma /\ b <= mb /\ a <> 0 /\ b <> 0 /\
            refused (authority :: signers) w
              [CTransfer source_a va user a; CTransfer source_b vb user b; CMint mint dest authority m]
      | ESwap err' =>
          account_fault e w s pool authority va vb mint program (Some source_a) (Some source_b) None err' \/
          (err' = IncorrectTokenProgramId /\ foreign w TOKEN_PROGRAM_ID [va; vb; mint])
      | _ => False
      end
  | _ => err = ENotEnoughAccountKeys \/ (err = ERuntime /\ bad_argument (DepositAll accounts n ma mb))
  end.

(** ** Two-sided withdrawal *)
Definition withdraw_all_fault (e : env) (signers : list Z) (w : world) (s : swap_state)
    (accounts : list Z) (n ma mb : Z) (err : error) : Prop :=
  match accounts with
  | pool :: authority :: user :: mint :: source :: va :: vb :: dest_a :: dest_b :: fee :: program :: _ =>
      let quote x va_has vb_has q := exists ta tb pm, token_at w va ta /\ token_at w vb tb /\ mint_at w mint pm /\
        va_has = t_amount ta /\ vb_has = t_amount tb /\
        pool_tokens_to_trading_tokens (st_curve s) (n - x) (m_supply pm) va_has vb_has Floor = q in
      match err with
      | ERuntime => bad_argument (WithdrawAll accounts n ma mb)
      | EMissingRequiredSignature => ~ In user signers
      | ESwap ExpectedAccount => no_token w [va; vb]
      | ESwap ExpectedMint => no_mint w mint
      | ESwap FeeCalculationFailure => exit_fee s source n = Non
      | ESwap CalculationFailure => exists x, exit_fee s source n = Val x /\ n < x
      | ESwap ZeroTradingTokens =>
          exists x ha hb, exit_fee s source n = Val x /\
            (quote x ha hb Non \/
             exists a b, quote x ha hb (Val (a, b)) /\
               (Z.min ha a = 0 /\ ha <> 0 \/ Z.min hb b = 0 /\ hb <> 0))
      | ESwap ExceededSlippage =>
          exists x ha hb a b, exit_fee s source n = Val x /\ quote x ha hb (Val (a, b)) /\
            (Z.min ha a < ma \/ Z.min hb b < mb)
      | ESwap ConversionFailure =>
          exists x ha hb a b, exit_fee s source n = Val x /\ quote x ha hb (Val (a, b)) /\
            (u64_max < a \/ u64_max < b)
      | EPanic => exit_fee s source n = Panic \/
          exists x ha hb, exit_fee s source n = Val x /\ quote x ha hb Panic
      | EToken =>
          exists x ha hb a b, exit_fee s source n = Val x /\ quote x ha hb (Val (a, b)) /\
            ma <= Z.min ha a /\ mb <= Z.min hb b /\
            (Z.min ha a = 0 -> ha = 0) /\ (Z.min hb b = 0 -> hb = 0) /\ a <= u64_max /\ b <= u64_max /\
            refused (authority :: signers) w
              (if_any x (CTransfer source fee user x) ++
               [CBurn source mint user (n - x)] ++
               if_any (Z.min ha a) (CTransfer va dest_a authority (Z.min ha a)) ++
               if_any (Z.min hb b) (CTransfer vb dest_b authority (Z.min hb b)))
      | ESwap err' =>
          account_fault e w s pool authority va vb mint program (Some dest_a) (Some dest_b) (Some fee) err' \/
          (err' = IncorrectTokenProgramId /\ foreign w TOKEN_PROGRAM_ID [va; vb; mint])
      | _ => False
      end
  | _ => err = ENotEnoughAccountKeys \/ (err = ERuntime /\ bad_argument (WithdrawAll accounts n ma mb))
  end.

(** ** One-sided deposit *)

(** Token A or token B, by the mint of the user's account. *)
Definition side_of (w : world) (mine va vb : Z) (d : trade_direction) : Prop :=
  exists t ta tb, token_at w mine t /\ token_at w va ta /\ token_at w vb tb /\
    picks (t_mint t) (t_mint ta) (t_mint tb) d.
Definition no_side (w : world) (mine va vb : Z) : Prop :=
  exists t ta tb, token_at w mine t /\ token_at w va ta /\ token_at w vb tb /\
    t_mint t <> t_mint ta /\ t_mint t <> t_mint tb.
Definition facing (d : trade_direction) (va vb : Z) : Z := match d with AtoB => va | BtoA => vb end.

Definition deposit_single_fault (e : env) (signers : list Z) (w : world) (s : swap_state)
    (accounts : list Z) (n mp : Z) (err : error) : Prop :=
  match accounts with
  | pool :: authority :: user :: source :: va :: vb :: mint :: dest :: program :: _ =>
      let quote d q := side_of w source va vb d /\
        exists ta tb pm, token_at w va ta /\ token_at w vb tb /\ mint_at w mint pm /\
          (if m_supply pm =? 0 then Val (10 ^ 9) else
             curve_deposit_single (st_curve s) n (t_amount ta) (t_amount tb) (m_supply pm) d (st_fees s)) = q in
      match err with
      | ERuntime => bad_argument (DepositSingle accounts n mp)
      | EMissingRequiredSignature => ~ In user signers
      | ESwap ExpectedAccount => no_token w [source; va; vb]
      | ESwap ExpectedMint => no_mint w mint
      | ESwap InvalidInput => exists d, side_of w source va vb d /\ source = facing d va vb
      | ESwap ZeroTradingTokens => exists d, quote d Non \/ quote d (Val 0)
      | ESwap ExceededSlippage => exists d p, quote d (Val p) /\ p < mp
      | ESwap ConversionFailure => exists d p, quote d (Val p) /\ u64_max < p
      | EPanic => exists d, quote d Panic
      | EToken =>
          exists d p, quote d (Val p) /\ mp <= p /\ p <> 0 /\
            refused (authority :: signers) w
              [CTransfer source (facing d va vb) user n; CMint mint dest authority p]
      | ESwap err' =>
          account_fault e w s pool authority va vb mint program None None None err' \/
          (err' = IncorrectSwapAccount /\ no_side w source va vb) \/
          (err' = IncorrectTokenProgramId /\ foreign w TOKEN_PROGRAM_ID [source; va; vb; mint])
      | _ => False
      end
  | _ => err = ENotEnoughAccountKeys \/ (err = ERuntime /\ bad_argument (DepositSingle accounts n mp))
  end.

(** ** One-sided withdrawal *)
Definition withdraw_single_fault (e : env) (signers : list Z) (w : world) (s : swap_state)
    (accounts : list Z) (n mp : Z) (err : error) : Prop :=
  match accounts with
  | pool :: authority :: user :: mint :: source :: va :: vb :: dest :: fee :: program :: _ =>
      let quote d q := side_of w dest va vb d /\
        exists ta tb pm, token_at w va ta /\ token_at w vb tb /\ mint_at w mint pm /\
          curve_withdraw_single (st_curve s) n (t_amount ta) (t_amount tb) (m_supply pm) d (st_fees s) = q in
      match err with
      | ERuntime => bad_argument (WithdrawSingle accounts n mp)
      | EMissingRequiredSignature => ~ In user signers
      | ESwap ExpectedAccount => no_token w [dest; va; vb]
      | ESwap ExpectedMint => no_mint w mint
      | ESwap InvalidInput => exists d, side_of w dest va vb d /\ dest = facing d va vb
      | ESwap FeeCalculationFailure => exists d p, quote d (Val p) /\ exit_fee s source p = Non
      | ESwap CalculationFailure =>
          exists d p x, quote d (Val p) /\ exit_fee s source p = Val x /\ u128_max < p + x
      | ESwap ZeroTradingTokens =>
          exists d, quote d Non \/ exists p x, quote d (Val p) /\ exit_fee s source p = Val x /\ p + x = 0
      | ESwap ExceededSlippage =>
          exists d p x, quote d (Val p) /\ exit_fee s source p = Val x /\ mp < p + x
      | ESwap ConversionFailure =>
          exists d p x, quote d (Val p) /\ exit_fee s source p = Val x /\ u64_max < p + x
      | EPanic => exists d, quote d Panic \/ exists p, quote d (Val p) /\ exit_fee s source p = Panic
      | EToken =>
          exists d p x, quote d (Val p) /\ exit_fee s source p = Val x /\ p + x <= mp /\ p + x <> 0 /\
            refused (authority :: signers) w
              (if_any x (CTransfer source fee user x) ++
               [CBurn source mint user p; CTransfer (facing d va vb) dest authority n])
      | ESwap err' =>
          account_fault e w s pool authority va vb mint program None None (Some fee) err' \/
          (err' = IncorrectSwapAccount /\ no_side w dest va vb) \/
          (err' = IncorrectTokenProgramId /\ foreign w TOKEN_PROGRAM_ID [dest; va; vb; mint])
      | _ => False
      end
  | _ => err = ENotEnoughAccountKeys \/ (err = ERuntime /\ bad_argument (WithdrawSingle accounts n mp))
  end.

(** ** Creation *)
Definition create_fault (e : env) (signers : list Z) (w : world) (i : instr) (err : error) : Prop :=
  match instr_accounts i with
  | pool :: authority :: va :: vb :: mint :: fee :: dest :: program :: _ =>
      let token k t := a_owner (w k) = program /\ a_data (w k) = DToken t in
      match err with
      | ERuntime => bad_argument i \/ a_owner (w pool) <> PROGRAM_ID
      | EMissingRequiredSignature => ~ In pool signers
      | EIncorrectProgramId => program <> TOKEN_PROGRAM_ID
      | EInvalidAccountData => length (raw_of (a_data (w pool))) <> 324%nat
      | EPanic => find_pda e pool = None \/ length (raw_of (a_data (w pool))) <> 324%nat
      | ESwap AlreadyInUse => exists s, swap_unpack (raw_of (a_data (w pool))) = Ok s
      | ESwap InvalidProgramAddress => forall bump, find_pda e pool <> Some (authority, bump)
      | ESwap IncorrectTokenProgramId => foreign w program [va; vb; fee; dest; mint]
      | ESwap ExpectedAccount => no_token w [va; vb; fee; dest]
      | ESwap ExpectedMint => no_mint w mint
      | ESwap InvalidOwner =>
          (exists k t, In k [va; vb] /\ token k t /\ t_owner t <> authority) \/
          (exists m, a_data (w mint) = DMint m /\ m_authority m <> Some authority) \/
          (exists sc t, constraints e = Some sc /\ token fee t /\ sc_owner_key sc <> Some (t_owner t))
      | ESwap InvalidOutputOwner => exists k t, In k [dest; fee] /\ token k t /\ t_owner t = authority
      | ESwap RepeatedMint => exists ta tb, token va ta /\ token vb tb /\ t_mint ta = t_mint tb
      | ESwap EmptySupply =>
          exists ta tb, token va ta /\ token vb tb /\
            match i with InitConstantPrice _ _ _ => t_amount ta = 0 | _ => t_amount tb = 0 end
      | ESwap InvalidSupply =>
          (exists m, a_data (w mint) = DMint m /\ m_supply m <> 0) \/
          (exists ta, token va ta /\ t_amount ta <> 0 /\
             match i with InitLinearPrice _ _ _ _ _ => True | _ => False end)
      | ESwap InvalidDelegate => exists k t, In k [va; vb] /\ token k t /\ t_delegate t <> None
      | ESwap InvalidCloseAuthority => exists k t, In k [va; vb] /\ token k t /\ t_close_authority t <> None
      | ESwap InvalidFreezeAuthority => exists m, a_data (w mint) = DMint m /\ m_freeze_authority m <> None
      | ESwap IncorrectPoolMint => exists t, token fee t /\ t_mint t <> mint
      | ESwap UnsupportedCurveType =>
          exists sc f c, constraints e = Some sc /\ requested i = Some (f, c) /\ ~ In (curve_tag c) (sc_valid_curve_tags sc)
      | ESwap InvalidFee =>
          exists f c, requested i = Some (f, c) /\
            ((forall owner, ~ constraints_ok e f c owner) \/
             ~ (proper_fraction (trade_fee_num f) (trade_fee_den f) /\
                proper_fraction (owner_trade_fee_num f) (owner_trade_fee_den f) /\
                proper_fraction (owner_withdraw_fee_num f) (owner_withdraw_fee_den f) /\
                proper_fraction (host_fee_num f) (host_fee_den f)))
      | ESwap InvalidCurve =>
          match i with
          | InitConstantPrice _ _ p => p = 0
          | InitLinearPrice _ sn sd pn pd => sn = 0 \/ sd = 0 \/ pd = 0 \/ sn * 10 ^ 18 < sd
          | _ => False
          end
      | EToken => refused (authority :: signers) w [CMint mint dest authority (10 ^ 9)]
      | _ => False
      end
  | _ => err = ENotEnoughAccountKeys \/ (err = ERuntime /\ bad_argument i)
  end.

(** ** Instructions on an account whose bytes are no pool *)
Definition no_pool_fault (signers : list Z) (w : world) (i : instr) (err : error) : Prop :=
  let raw := raw_of (a_data (w (named_pool i))) in
  match err with
  | ERuntime => bad_argument i
  | ENotEnoughAccountKeys => (length (instr_accounts i) <= 10)%nat
  | EMissingRequiredSignature => ~ In (nth 2 (instr_accounts i) 0) signers
  | EIncorrectProgramId => a_owner (w (named_pool i)) <> PROGRAM_ID
  | EUninitializedAccount => nth 0 raw 0 <> 1 \/ nth 1 raw 0 = 0
  | EInvalidAccountData =>
      length raw <> 324%nat \/ ~ In (nth 1 raw 0) [0; 1] \/ ~ In (nth 291 raw 0) [0; 1; 2; 3; 30]
  | _ => False
  end.
