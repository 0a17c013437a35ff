(** Which token-program calls succeed and what they do, and which calls an
    instruction makes: the vocabulary of the exact characterisations. *)
From Verif Require Import Ints Fees LinearCurve SwapCurve Codec Token Processor Api History Spec LedgerSpec.

(** A call into the token program. *)
Inductive call : Type :=
| CTransfer (source dest authority amount : Z)
| CMint (mint dest authority amount : Z)
| CBurn (source mint authority amount : Z).

(** A token account with another amount, delegate and allowance. *)
Definition retoken (t : token_account) (amount : Z) (delegate : option Z) (allowance : Z) : account :=
  mk_account TOKEN_PROGRAM_ID
    (DToken (mk_token (t_mint t) (t_owner t) amount delegate allowance (t_frozen t) (t_native t)
                      (t_close_authority t))).
Definition remint (m : mint_account) (supply : Z) : account :=
  mk_account TOKEN_PROGRAM_ID (DMint (mk_mint (m_authority m) supply (m_decimals m) (m_freeze_authority m))).

(** The ledger [w] with two accounts replaced. *)
Definition with2 (w : world) (k1 : Z) (a1 : account) (k2 : Z) (a2 : account) : world :=
  fun k => if k =? k2 then a2 else if k =? k1 then a1 else w k.

(** The signature of [a] counts: it is there, and [a] is not a multisig account. *)
Definition signs (w : world) (signed : list Z) (a : Z) : Prop :=
  In a signed /\
  ~ (a_owner (w a) = TOKEN_PROGRAM_ID /\ exists l, a_data (w a) = DRaw l /\ length l = 355%nat).

(** [a] takes [x] from the token account [t], leaving [t'] behind: as delegate,
    whose allowance is used up first, or as owner. *)
Definition debit (w : world) (signed : list Z) (t : token_account) (a x : Z) (t' : account) : Prop :=
  signs w signed a /\ x <= t_amount t /\
  ((t_delegate t = Some a /\ x <= t_delegated_amount t /\
    t' = retoken t (t_amount t - x) (if t_delegated_amount t =? x then None else Some a)
                 (t_delegated_amount t - x)) \/
   (t_delegate t <> Some a /\ t_owner t = a /\
    t' = retoken t (t_amount t - x) (t_delegate t) (t_delegated_amount t))).

Definition call_ok (signed : list Z) (w : world) (c : call) (w' : world) : Prop :=
  match c with
  | CTransfer s d a x =>
      exists ts td ts', token_at w s ts /\ token_at w d td /\ t_frozen ts = false /\ t_frozen td = false /\
        t_mint ts = t_mint td /\ debit w signed ts a x ts' /\
        (s = d /\ w' = w \/
         s <> d /\ t_amount td + x <= u64_max /\
         w' = with2 w s ts' d (retoken td (t_amount td + x) (t_delegate td) (t_delegated_amount td)))
  | CMint m d a x =>
      exists mt td, mint_at w m mt /\ token_at w d td /\ t_frozen td = false /\ t_native td = false /\
        t_mint td = m /\ m_authority mt = Some a /\ signs w signed a /\
        t_amount td + x <= u64_max /\ m_supply mt + x <= u64_max /\
        w' = with2 w d (retoken td (t_amount td + x) (t_delegate td) (t_delegated_amount td))
                     m (remint mt (m_supply mt + x))
  | CBurn s m a x =>
      exists mt ts ts', mint_at w m mt /\ token_at w s ts /\ t_frozen ts = false /\ t_native ts = false /\
        t_mint ts = m /\ debit w signed ts a x ts' /\ x <= m_supply mt /\
        w' = with2 w s ts' m (remint mt (m_supply mt - x))
  end.

(** A sequence of calls, one after the other. *)
Fixpoint calls_ok (signed : list Z) (w : world) (l : list call) (w' : world) : Prop :=
  match l with
  | [] => w' = w
  | c :: l' => exists w1, call_ok signed w c w1 /\ calls_ok signed w1 l' w'
  end.

(** A call that is made only for a non-zero amount. *)
Definition if_any (x : Z) (c : call) : list call := if 0 <? x then [c] else [].

(** Vault on the side of the pool that takes part in a one-sided operation. *)
Definition side_vault (d : trade_direction) (s : swap_state) : Z :=
  match d with AtoB => st_token_a s | BtoA => st_token_b s end.

(** Token A if the mints agree there, else token B. *)
Definition picks (mint mint_a mint_b : Z) (d : trade_direction) : Prop :=
  match d with AtoB => mint = mint_a | BtoA => mint = mint_b /\ mint <> mint_a end.

(** Curves of pools that take deposits. *)
Definition takes_deposits (c : curve) : Prop :=
  match c with ConstantProduct | ConstantPrice _ | Stable _ => True | Offset _ | LinearPrice _ => False end.

(** ** What each instruction asks for, and the calls it then makes *)

Definition swap_spec (e : env) (signers : list Z) (w : world) (accounts : list Z) (ain mout : Z) (w' : world) : Prop :=
  exists pool authority user source ssrc sdst dest rest s ta tb pm r minted,
    accounts = pool :: authority :: user :: source :: ssrc :: sdst :: dest
                 :: st_pool_mint s :: st_pool_fee_account s :: TOKEN_PROGRAM_ID :: rest /\
    is_u64 ain /\ is_u64 mout /\ In user signers /\
    pool_at w pool s /\ st_token_program_id s = TOKEN_PROGRAM_ID /\
    create_pda e pool (st_bump_seed s) = Some authority /\
    (ssrc = st_token_a s /\ sdst = st_token_b s \/ ssrc = st_token_b s /\ sdst = st_token_a s) /\
    ssrc <> sdst /\ source <> ssrc /\ dest <> sdst /\
    token_at w ssrc ta /\ token_at w sdst tb /\ mint_at w (st_pool_mint s) pm /\
    let d := if ssrc =? st_token_a s then AtoB else BtoA in
    curve_swap (st_curve s) ain (t_amount ta) (t_amount tb) d (st_fees s) = Val r /\
    mout <= destination_amount_swapped r <= u64_max /\ source_amount_swapped r <= u64_max /\
    curve_withdraw_single (st_curve s) (owner_fee r)
      (side_a d (new_swap_source_amount r) (new_swap_destination_amount r))
      (side_b d (new_swap_source_amount r) (new_swap_destination_amount r))
      (m_supply pm) d (st_fees s) = Val minted /\ minted <= u64_max /\
    calls_ok (authority :: signers) w
      (CTransfer source ssrc user (source_amount_swapped r) ::
       if_any minted (CMint (st_pool_mint s) (st_pool_fee_account s) authority minted) ++
       [CTransfer sdst dest authority (destination_amount_swapped r)]) w'.

Definition deposit_all_spec (e : env) (signers : list Z) (w : world) (accounts : list Z) (n ma mb : Z) (w' : world) : Prop :=
  exists pool authority user source_a source_b dest rest s ta tb pm a b,
    accounts = pool :: authority :: user :: source_a :: source_b :: st_token_a s :: st_token_b s
                 :: st_pool_mint s :: dest :: TOKEN_PROGRAM_ID :: rest /\
    is_u64 n /\ is_u64 ma /\ is_u64 mb /\ In user signers /\
    pool_at w pool s /\ st_token_program_id s = TOKEN_PROGRAM_ID /\
    create_pda e pool (st_bump_seed s) = Some authority /\
    source_a <> st_token_a s /\ source_b <> st_token_b s /\ takes_deposits (st_curve s) /\
    token_at w (st_token_a s) ta /\ token_at w (st_token_b s) tb /\ mint_at w (st_pool_mint s) pm /\
    let (minted, outstanding) := if m_supply pm =? 0 then (10 ^ 9, 10 ^ 9) else (n, m_supply pm) in
    pool_tokens_to_trading_tokens (st_curve s) minted outstanding (t_amount ta) (t_amount tb) Ceiling = Val (a, b) /\
    a <= ma /\ b <= mb /\ a <> 0 /\ b <> 0 /\
    calls_ok (authority :: signers) w
      [CTransfer source_a (st_token_a s) user a; CTransfer source_b (st_token_b s) user b;
       CMint (st_pool_mint s) dest authority minted] w'.

Definition withdraw_all_spec (e : env) (signers : list Z) (w : world) (accounts : list Z) (n ma mb : Z) (w' : world) : Prop :=
  exists pool authority user source dest_a dest_b rest s ta tb pm charge share_a share_b,
    accounts = pool :: authority :: user :: st_pool_mint s :: source :: st_token_a s :: st_token_b s
                 :: dest_a :: dest_b :: st_pool_fee_account s :: TOKEN_PROGRAM_ID :: rest /\
    is_u64 n /\ is_u64 ma /\ is_u64 mb /\ In user signers /\
    pool_at w pool s /\ st_token_program_id s = TOKEN_PROGRAM_ID /\
    create_pda e pool (st_bump_seed s) = Some authority /\
    dest_a <> st_token_a s /\ dest_b <> st_token_b s /\
    token_at w (st_token_a s) ta /\ token_at w (st_token_b s) tb /\ mint_at w (st_pool_mint s) pm /\
    (st_pool_fee_account s = source /\ charge = 0 \/
     st_pool_fee_account s <> source /\ owner_withdraw_fee (st_fees s) n = Val charge) /\ charge <= n /\
    pool_tokens_to_trading_tokens (st_curve s) (n - charge) (m_supply pm) (t_amount ta) (t_amount tb) Floor
      = Val (share_a, share_b) /\
    share_a <= u64_max /\ share_b <= u64_max /\
    let a := Z.min (t_amount ta) share_a in let b := Z.min (t_amount tb) share_b in
    ma <= a /\ mb <= b /\ (a = 0 -> t_amount ta = 0) /\ (b = 0 -> t_amount tb = 0) /\
    calls_ok (authority :: signers) w
      (if_any charge (CTransfer source (st_pool_fee_account s) user charge) ++
       [CBurn source (st_pool_mint s) user (n - charge)] ++
       if_any a (CTransfer (st_token_a s) dest_a authority a) ++
       if_any b (CTransfer (st_token_b s) dest_b authority b)) w'.

Definition deposit_single_spec (e : env) (signers : list Z) (w : world) (accounts : list Z) (n mp : Z) (w' : world) : Prop :=
  exists pool authority user source dest rest s ts ta tb pm d minted,
    accounts = pool :: authority :: user :: source :: st_token_a s :: st_token_b s
                 :: st_pool_mint s :: dest :: TOKEN_PROGRAM_ID :: rest /\
    is_u64 n /\ is_u64 mp /\ In user signers /\
    pool_at w pool s /\ st_token_program_id s = TOKEN_PROGRAM_ID /\
    create_pda e pool (st_bump_seed s) = Some authority /\
    token_at w source ts /\ token_at w (st_token_a s) ta /\ token_at w (st_token_b s) tb /\
    mint_at w (st_pool_mint s) pm /\
    picks (t_mint ts) (t_mint ta) (t_mint tb) d /\ source <> side_vault d s /\
    (if m_supply pm =? 0 then Val (10 ^ 9) else
       curve_deposit_single (st_curve s) n (t_amount ta) (t_amount tb) (m_supply pm) d (st_fees s)) = Val minted /\
    mp <= minted <= u64_max /\ minted <> 0 /\
    calls_ok (authority :: signers) w
      [CTransfer source (side_vault d s) user n; CMint (st_pool_mint s) dest authority minted] w'.

Definition withdraw_single_spec (e : env) (signers : list Z) (w : world) (accounts : list Z) (n mp : Z) (w' : world) : Prop :=
  exists pool authority user source dest rest s td ta tb pm d burnt charge,
    accounts = pool :: authority :: user :: st_pool_mint s :: source :: st_token_a s :: st_token_b s
                 :: dest :: st_pool_fee_account s :: TOKEN_PROGRAM_ID :: rest /\
    is_u64 n /\ is_u64 mp /\ In user signers /\
    pool_at w pool s /\ st_token_program_id s = TOKEN_PROGRAM_ID /\
    create_pda e pool (st_bump_seed s) = Some authority /\
    token_at w dest td /\ token_at w (st_token_a s) ta /\ token_at w (st_token_b s) tb /\
    mint_at w (st_pool_mint s) pm /\
    picks (t_mint td) (t_mint ta) (t_mint tb) d /\ dest <> side_vault d s /\
    curve_withdraw_single (st_curve s) n (t_amount ta) (t_amount tb) (m_supply pm) d (st_fees s) = Val burnt /\
    (st_pool_fee_account s = source /\ charge = 0 \/
     st_pool_fee_account s <> source /\ owner_withdraw_fee (st_fees s) burnt = Val charge) /\
    burnt + charge <= mp /\ burnt + charge <> 0 /\
    calls_ok (authority :: signers) w
      (if_any charge (CTransfer source (st_pool_fee_account s) user charge) ++
       [CBurn source (st_pool_mint s) user burnt; CTransfer (side_vault d s) dest authority n]) w'.

(** Creation. *)
Definition create_spec (e : env) (signers : list Z) (w : world) (i : instr) : Prop :=
  exists pool authority vault_a vault_b mint fee dest rest f c bump ta tb tf td pm w1,
    instr_accounts i = pool :: authority :: vault_a :: vault_b :: mint :: fee :: dest :: TOKEN_PROGRAM_ID :: rest /\
    requested i = Some (f, c) /\ fees_wf f /\ curve_wf c /\ In pool signers /\
    a_owner (w pool) = PROGRAM_ID /\ (forall s, ~ pool_at w pool s) /\
    length (raw_of (a_data (w pool))) = 324%nat /\
    find_pda e pool = Some (authority, bump) /\
    token_at w vault_a ta /\ token_at w vault_b tb /\ token_at w fee tf /\ token_at w dest td /\ mint_at w mint pm /\
    t_owner ta = authority /\ t_owner tb = authority /\ t_mint ta <> t_mint tb /\
    t_delegate ta = None /\ t_delegate tb = None /\ t_close_authority ta = None /\ t_close_authority tb = None /\
    m_supply pm = 0 /\ m_authority pm = Some authority /\ m_freeze_authority pm = None /\
    t_mint tf = mint /\ t_owner tf <> authority /\ t_owner td <> authority /\
    constraints_ok e f c (t_owner tf) /\
    proper_fraction (trade_fee_num f) (trade_fee_den f) /\
    proper_fraction (owner_trade_fee_num f) (owner_trade_fee_den f) /\
    proper_fraction (owner_withdraw_fee_num f) (owner_withdraw_fee_den f) /\
    proper_fraction (host_fee_num f) (host_fee_den f) /\
    match c with
    | ConstantPrice p => p <> 0 /\ t_amount ta <> 0
    | LinearPrice l => slope_num l <> 0 /\ slope_den l <> 0 /\ price_den l <> 0 /\
        slope_den l <= slope_num l * 10 ^ 18 /\ t_amount ta = 0 /\ t_amount tb <> 0
    | _ => False
    end /\
    calls_ok (authority :: signers) w [CMint mint dest authority (10 ^ 9)] w1.
