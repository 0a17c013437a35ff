(** lib.rs and instructions/*.rs: the instructions the program exports.

    Anchor decodes the arguments, takes the first accounts of the transaction's
    account list by position (further accounts are ignored by every handler),
    checks the signer attributes, and calls the processor.  Anchor's checks of
    the writable flags are in Entry.v. *)
From Verif Require Import Ints Fees LinearCurve SwapCurve Codec Token Processor.

(** lib.rs 38-165.  Every variant carries the transaction's account list. *)
Inductive instr : Type :=
| InitConstantPrice (accounts : list Z) (f : fees) (token_b_price : Z)
| InitLinearPrice (accounts : list Z) (slope_n slope_d price_n price_d : Z)
| Swap (accounts : list Z) (amount_in minimum_amount_out : Z)
| DepositAll (accounts : list Z) (pool_token_amount maximum_a maximum_b : Z)
| WithdrawAll (accounts : list Z) (pool_token_amount minimum_a minimum_b : Z)
| DepositSingle (accounts : list Z) (source_token_amount minimum_pool_tokens : Z)
| WithdrawSingle (accounts : list Z) (destination_token_amount maximum_pool_tokens : Z).

(** The integer arguments, all of type [u64]. *)
Definition instr_args (i : instr) : list Z :=
  match i with
  | InitConstantPrice _ f p =>
      [trade_fee_num f; trade_fee_den f; owner_trade_fee_num f; owner_trade_fee_den f;
       owner_withdraw_fee_num f; owner_withdraw_fee_den f; host_fee_num f; host_fee_den f; p]
  | InitLinearPrice _ a b c d => [a; b; c; d]
  | Swap _ a b | DepositSingle _ a b | WithdrawSingle _ a b => [a; b]
  | DepositAll _ a b c | WithdrawAll _ a b c => [a; b; c]
  end.

Definition u64b (x : Z) : bool := (0 <=? x) && (x <=? u64_max).

(** Take exactly the first [n] accounts and check the signer attribute of the
    account at position [signer]. *)
Definition anchor_accounts (n signer : nat) (signers accounts : list Z) : result (list Z) :=
  do! _ := guard (Nat.ltb (length accounts) n) ENotEnoughAccountKeys in
  do! _ := guard (negb (mem (nth signer accounts 0) signers)) EMissingRequiredSignature in
  Ok (firstn n accounts).

(** lib.rs 73-104: the fees of every linear pool *)
Definition linear_fees : fees := mk_fees 0 1 0 1 0 1 0 1.

(** lib.rs 38-165 and the handlers in instructions/*.rs *)
Definition exec (e : env) (signers : list Z) (w : world) (i : instr) : result world :=
  do! _ := guard (negb (forallb u64b (instr_args i))) ERuntime in
  match i with
  | InitConstantPrice accounts f p =>
      do! l := anchor_accounts 8 0 signers accounts in
      process_initialize e signers w f (ConstantPrice p) l
  | InitLinearPrice accounts sn sd pn pd =>
      do! l := anchor_accounts 8 0 signers accounts in
      process_initialize e signers w linear_fees (LinearPrice (mk_linear sn sd pn pd)) l
  | Swap accounts amount_in minimum_amount_out =>
      do! l := anchor_accounts 10 2 signers accounts in
      process_swap e signers w amount_in minimum_amount_out l
  | DepositAll accounts n ma mb =>
      do! l := anchor_accounts 10 2 signers accounts in
      process_deposit_all e signers w n ma mb l
  | WithdrawAll accounts n ma mb =>
      do! l := anchor_accounts 11 2 signers accounts in
      process_withdraw_all e signers w n ma mb l
  | DepositSingle accounts n m =>
      do! l := anchor_accounts 9 2 signers accounts in
      process_deposit_single e signers w n m l
  | WithdrawSingle accounts n m =>
      do! l := anchor_accounts 10 2 signers accounts in
      process_withdraw_single e signers w n m l
  end.

Definition instr_accounts (i : instr) : list Z :=
  match i with
  | InitConstantPrice l _ _ | InitLinearPrice l _ _ _ _ | Swap l _ _ | DepositAll l _ _ _
  | WithdrawAll l _ _ _ | DepositSingle l _ _ | WithdrawSingle l _ _ => l
  end.

(** Every instruction names the pool it works on as its first account. *)
Definition named_pool (i : instr) : Z := nth 0 (instr_accounts i) 0.
