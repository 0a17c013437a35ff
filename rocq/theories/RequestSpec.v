(** Requests that name the right accounts. *)
From Verif Require Import Ints Fees SwapCurve Token Codec LedgerSpec.

(** A token account that can be paid tokens of kind [mint], if there is room. *)
Definition payee (w : world) (k mint : Z) : Prop :=
  exists t, token_at w k t /\ t_mint t = mint /\ t_frozen t = false.

(** The owner's charge for redeeming [n] pool tokens from account [source]: nothing from the
    fee account itself or at a rate of zero, otherwise at least one. *)
Definition exit_charge (s : swap_state) (source n : Z) : Z :=
  if (st_pool_fee_account s =? source) || (owner_withdraw_fee_num (st_fees s) =? 0) || (n =? 0) then 0
  else Z.max 1 (n * owner_withdraw_fee_num (st_fees s) / owner_withdraw_fee_den (st_fees s)).
