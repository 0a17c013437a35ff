(** Sums of balances over many accounts, and runs of many instructions. *)
From Verif Require Import Ints Token Codec Processor Api History LedgerSpec.

(** What account [k] holds of the token with mint [m]. *)
Definition held (w : world) (m k : Z) : Z :=
  if a_owner (w k) =? TOKEN_PROGRAM_ID then
    match a_data (w k) with DToken t => if t_mint t =? m then t_amount t else 0 | _ => 0 end
  else 0.

(** What the accounts [ks] hold together. *)
Fixpoint total (w : world) (m : Z) (ks : list Z) : Z :=
  match ks with [] => 0 | k :: ks' => held w m k + total w m ks' end.

(** The account named as mint of the pool. *)
Definition mint_named (i : instr) : Z :=
  nth match i with
      | InitConstantPrice _ _ _ | InitLinearPrice _ _ _ _ _ => 4
      | Swap _ _ _ | DepositAll _ _ _ _ => 7
      | WithdrawAll _ _ _ _ | WithdrawSingle _ _ _ => 3
      | DepositSingle _ _ _ => 6
      end (instr_accounts i) 0.

(** One instruction after the other, each with its signers; a failed one changes nothing. *)
Fixpoint play (e : env) (w : world) (l : list (list Z * instr)) : world :=
  match l with
  | [] => w
  | (signers, i) :: l' => play e (match exec e signers w i with Ok w' => w' | Err _ => w end) l'
  end.
