(** Vocabulary of the ledger-level property statements. *)
From Verif Require Import Ints Fees SwapCurve Codec Token Processor Api History Spec.

(** Tokens held by an account (0 if it is not a token account). *)
Definition balance (w : world) (k : Z) : Z :=
  if a_owner (w k) =? TOKEN_PROGRAM_ID then
    match a_data (w k) with DToken t => t_amount t | _ => 0 end
  else 0.

(** Tokens in existence according to a mint (0 if it is not a mint). *)
Definition supply (w : world) (k : Z) : Z :=
  if a_owner (w k) =? TOKEN_PROGRAM_ID then
    match a_data (w k) with DMint m => m_supply m | _ => 0 end
  else 0.

(** [x] at the key [at_key], nothing elsewhere. *)
Definition only_at (at_key k x : Z) : Z := if k =? at_key then x else 0.

(** An account without its token amount / supply: everything about it that a
    transfer, mint or burn is not supposed to change ... *)
Definition sans_amount (a : account) : account :=
  mk_account (a_owner a)
    match a_data a with
    | DToken t => DToken (mk_token (t_mint t) (t_owner t) 0 (t_delegate t) (t_delegated_amount t)
                                   (t_frozen t) (t_native t) (t_close_authority t))
    | DMint m => DMint (mk_mint (m_authority m) 0 (m_decimals m) (m_freeze_authority m))
    | DRaw l => DRaw l
    end.
(** ... and the same ignoring the allowance given to a delegate. *)
Definition sans_allowance (a : account) : account :=
  mk_account (a_owner a)
    match a_data a with
    | DToken t => DToken (mk_token (t_mint t) (t_owner t) 0 None 0
                                   (t_frozen t) (t_native t) (t_close_authority t))
    | DMint m => DMint (mk_mint (m_authority m) 0 (m_decimals m) (m_freeze_authority m))
    | DRaw l => DRaw l
    end.

(** The pool stored at key [k]. *)
Definition pool_at (w : world) (k : Z) (s : swap_state) : Prop :=
  a_owner (w k) = PROGRAM_ID /\ swap_unpack (raw_of (a_data (w k))) = Ok s.

Definition token_at (w : world) (k : Z) (t : token_account) : Prop :=
  a_owner (w k) = TOKEN_PROGRAM_ID /\ a_data (w k) = DToken t.
Definition mint_at (w : world) (k : Z) (m : mint_account) : Prop :=
  a_owner (w k) = TOKEN_PROGRAM_ID /\ a_data (w k) = DMint m.

(** The signers are entitled to take [x] tokens out of account [k]: the owner
    signed, or a delegate whose allowance covers [x]. *)
Definition may_debit (signers : list Z) (w : world) (k x : Z) : Prop :=
  exists t, token_at w k t /\
    (In (t_owner t) signers \/
     exists d, t_delegate t = Some d /\ In d signers /\ x <= t_delegated_amount t).

(** The step from [w] to [w'] changes balances by [db] and supplies by [ds];
    accounts outside [touched] keep every bit, accounts outside [debited] keep
    everything but their amount, and the debited ones may in addition lose (part
    of) a delegate's allowance. *)
Definition ledger_change (w w' : world) (db ds : Z -> Z) (touched debited : list Z) : Prop :=
  (forall k, balance w' k = balance w k + db k) /\
  (forall k, supply w' k = supply w k + ds k) /\
  (forall k, ~ In k touched -> w' k = w k) /\
  (forall k, ~ In k debited -> sans_amount (w' k) = sans_amount (w k)) /\
  (forall k, sans_allowance (w' k) = sans_allowance (w k)).

(** The two curve types for which the program exports a creation instruction. *)
Definition creatable (c : curve) : Prop :=
  match c with ConstantPrice _ | LinearPrice _ => True | _ => False end.

(** Two token accounts for the same token. *)
Definition same_mint (w : world) (k k' : Z) : Prop :=
  exists t t', token_at w k t /\ token_at w k' t' /\ t_mint t = t_mint t'.

(** Instructions by what they may do. *)
Definition creates (i : instr) : Prop :=
  match i with InitConstantPrice _ _ _ | InitLinearPrice _ _ _ _ _ => True | _ => False end.
Definition pays_out (i : instr) : Prop :=
  match i with Swap _ _ _ | WithdrawAll _ _ _ _ | WithdrawSingle _ _ _ => True | _ => False end.
Definition mints (i : instr) : Prop :=
  match i with Swap _ _ _ | DepositAll _ _ _ _ | DepositSingle _ _ _ => True | _ => False end.

(** Fees and curve a creation instruction asks for. *)
Definition requested (i : instr) : option (fees * curve) :=
  match i with
  | InitConstantPrice _ f p => Some (f, ConstantPrice p)
  | InitLinearPrice _ sn sd pn pd => Some (mk_fees 0 1 0 1 0 1 0 1, LinearPrice (LinearCurve.mk_linear sn sd pn pd))
  | _ => None
  end.

(** What the owner's constraints (if compiled in) ask of a new pool. *)
Definition constraints_ok (e : env) (f : fees) (c : curve) (fee_owner : Z) : Prop :=
  match constraints e with
  | None => True
  | Some sc => sc_owner_key sc = Some fee_owner /\ In (curve_tag c) (sc_valid_curve_tags sc) /\
      let g := sc_fees sc in
      trade_fee_num g <= trade_fee_num f /\ trade_fee_den f = trade_fee_den g /\
      owner_trade_fee_num g <= owner_trade_fee_num f /\ owner_trade_fee_den f = owner_trade_fee_den g /\
      owner_withdraw_fee_num g <= owner_withdraw_fee_num f /\
      owner_withdraw_fee_den f = owner_withdraw_fee_den g /\
      host_fee_num f = host_fee_num g /\ host_fee_den f = host_fee_den g
  end.

(** A vault of the pool with the given authority: a token account of the recorded
    mint owned by the authority, which nobody else can debit or close. *)
Definition vault_ok (w : world) (authority vault mint : Z) : Prop :=
  exists t, token_at w vault t /\ t_owner t = authority /\ t_mint t = mint /\
    t_delegate t = None /\ t_close_authority t = None.

(** A configuration the public instructions can produce: fees within the
    constraints, each a proper fraction; a linear pool without fees and with
    a slope of at least 10^-18, or a constant-price pool with a non-zero price. *)
Definition config_ok (e : env) (f : fees) (c : curve) : Prop :=
  (exists owner, constraints_ok e f c owner) /\
  proper_fraction (trade_fee_num f) (trade_fee_den f) /\
  proper_fraction (owner_trade_fee_num f) (owner_trade_fee_den f) /\
  proper_fraction (owner_withdraw_fee_num f) (owner_withdraw_fee_den f) /\
  proper_fraction (host_fee_num f) (host_fee_den f) /\
  match c with
  | LinearPrice l => f = mk_fees 0 1 0 1 0 1 0 1 /\ linear_wf l /\
      LinearCurve.slope_num l <> 0 /\ LinearCurve.slope_den l <> 0 /\ LinearCurve.price_den l <> 0 /\
      LinearCurve.slope_den l <= LinearCurve.slope_num l * 10 ^ 18
  | ConstantPrice p => is_u64 p /\ 0 < p
  | _ => False
  end.

(** A pool in good order: its authority, vaults and mint are as they were when it
    was created. *)
Definition pool_ok (e : env) (w : world) (pool : Z) (s : swap_state) : Prop :=
  exists authority,
    find_pda e pool = Some (authority, st_bump_seed s) /\
    st_token_program_id s = TOKEN_PROGRAM_ID /\
    vault_ok w authority (st_token_a s) (st_token_a_mint s) /\
    vault_ok w authority (st_token_b s) (st_token_b_mint s) /\
    st_token_a_mint s <> st_token_b_mint s /\
    st_pool_fee_account s <> st_token_a s /\ st_pool_fee_account s <> st_token_b s /\
    (exists m, mint_at w (st_pool_mint s) m /\ m_authority m = Some authority /\ m_freeze_authority m = None) /\
    config_ok e (st_fees s) (st_curve s).

Definition vault_of_pool (s : swap_state) (k : Z) : Prop := k = st_token_a s \/ k = st_token_b s.

(** Ledgers that can arise. *)
Definition reachable (e : env) (w : world) : Prop :=
  exists w0 evs, genesis_ok w0 /\ history e w0 evs w.

(** Instructions that put liquidity in or take it out. *)
Definition deposits (i : instr) : Prop :=
  match i with DepositAll _ _ _ _ | DepositSingle _ _ _ => True | _ => False end.
Definition withdraws (i : instr) : Prop :=
  match i with WithdrawAll _ _ _ _ | WithdrawSingle _ _ _ => True | _ => False end.

(** Where an instruction puts newly minted pool tokens, and the token accounts in
    its other roles. *)
Definition mint_target (i : instr) : Z :=
  match i with
  | Swap l _ _ | DepositAll l _ _ _ => nth 8 l 0
  | DepositSingle l _ _ => nth 7 l 0
  | _ => 0
  end.
Definition other_token_accounts (i : instr) : list Z :=
  match i with
  | Swap l _ _ | DepositAll l _ _ _ => firstn 4 (skipn 3 l)
  | DepositSingle l _ _ => firstn 3 (skipn 3 l)
  | _ => []
  end.
