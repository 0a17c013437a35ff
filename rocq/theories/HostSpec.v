(** Swaps that name a host, who gets a share of the owner's fee. *)
From Verif Require Import Ints Fees SwapCurve Codec Token Processor Api History Spec LedgerSpec CallSpec QuoteSpec.

(** The share of the host of [minted] pool tokens.  If there are any, the host's
    account has to be one for pool tokens. *)
Definition host_gets (w : world) (f : fees) (mint host minted share : Z) : Prop :=
  minted <= 0 /\ share = 0 \/
  0 < minted /\ (exists t, token_at w host t /\ t_mint t = mint) /\
  fee_of minted (host_fee_num f) (host_fee_den f) = Val share /\ share <= minted.

(** The processor's swap with a host account after the ten accounts of a swap. *)
Definition host_swap_spec (e : env) (signers : list Z) (w : world) (accounts : list Z) (ain mout : Z) (w' : world) : Prop :=
  exists pool authority user source ssrc sdst dest host rest s ta tb pm r minted share,
    accounts = pool :: authority :: user :: source :: ssrc :: sdst :: dest
                 :: st_pool_mint s :: st_pool_fee_account s :: TOKEN_PROGRAM_ID :: host :: rest /\
    pool_at w pool s /\ st_token_program_id s = TOKEN_PROGRAM_ID /\
    create_pda e pool (st_bump_seed s) = Some authority /\
    (ssrc = st_token_a s /\ sdst = st_token_b s \/ ssrc = st_token_b s /\ sdst = st_token_a s) /\
    ssrc <> sdst /\ source <> ssrc /\ dest <> sdst /\
    token_at w ssrc ta /\ token_at w sdst tb /\ mint_at w (st_pool_mint s) pm /\
    let d := if ssrc =? st_token_a s then AtoB else BtoA in
    curve_swap (st_curve s) ain (t_amount ta) (t_amount tb) d (st_fees s) = Val r /\
    mout <= destination_amount_swapped r <= u64_max /\ source_amount_swapped r <= u64_max /\
    curve_withdraw_single (st_curve s) (owner_fee r)
      (side_a d (new_swap_source_amount r) (new_swap_destination_amount r))
      (side_b d (new_swap_source_amount r) (new_swap_destination_amount r))
      (m_supply pm) d (st_fees s) = Val minted /\
    host_gets w (st_fees s) (st_pool_mint s) host minted share /\
    share <= u64_max /\ minted - share <= u64_max /\
    calls_ok (authority :: signers) w
      (CTransfer source ssrc user (source_amount_swapped r) ::
       if_any share (CMint (st_pool_mint s) host authority share) ++
       if_any minted (CMint (st_pool_mint s) (st_pool_fee_account s) authority (minted - share)) ++
       [CTransfer sdst dest authority (destination_amount_swapped r)]) w'.
