(** What an instruction may depend on. *)
From Verif Require Import Ints Fees SwapCurve Codec Token Processor Api.

(** The accounts an instruction works with: the first ones of the list, as many as
    its accounts structure has fields (instructions/*.rs). *)
Definition arity (i : instr) : nat :=
  match i with
  | InitConstantPrice _ _ _ | InitLinearPrice _ _ _ _ _ => 8
  | Swap _ _ _ | DepositAll _ _ _ _ | WithdrawSingle _ _ _ => 10
  | WithdrawAll _ _ _ _ => 11
  | DepositSingle _ _ _ => 9
  end.
Definition used (i : instr) : list Z := firstn (arity i) (instr_accounts i).

(** Two outcomes that agree on the accounts in [l]. *)
Definition same_result (l : list Z) (r1 r2 : result world) : Prop :=
  match r1, r2 with
  | Ok a, Ok b => forall k, In k l -> a k = b k
  | Err x, Err y => x = y
  | _, _ => False
  end.
