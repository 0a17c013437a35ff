(** The limits a caller puts into an instruction. *)
From Verif Require Import Ints Fees SwapCurve Codec Token Processor Api.

(** The same request with other limits. *)
Definition relimited (i i' : instr) : Prop :=
  match i, i' with
  | Swap l x _, Swap l' x' m' => l' = l /\ x' = x /\ is_u64 m'
  | DepositAll l n _ _, DepositAll l' n' ma' mb' => l' = l /\ n' = n /\ is_u64 ma' /\ is_u64 mb'
  | WithdrawAll l n _ _, WithdrawAll l' n' ma' mb' => l' = l /\ n' = n /\ is_u64 ma' /\ is_u64 mb'
  | DepositSingle l n _, DepositSingle l' n' m' => l' = l /\ n' = n /\ is_u64 m'
  | WithdrawSingle l n _, WithdrawSingle l' n' m' => l' = l /\ n' = n /\ is_u64 m'
  | _, _ => False
  end.

(** ... that are no stricter: smaller minima, larger maxima. *)
Definition loosened (i i' : instr) : Prop :=
  match i, i' with
  | Swap _ _ m, Swap _ _ m' => m' <= m
  | DepositAll _ _ ma mb, DepositAll _ _ ma' mb' => ma <= ma' /\ mb <= mb'
  | WithdrawAll _ _ ma mb, WithdrawAll _ _ ma' mb' => ma' <= ma /\ mb' <= mb
  | DepositSingle _ _ m, DepositSingle _ _ m' => m' <= m
  | WithdrawSingle _ _ m, WithdrawSingle _ _ m' => m <= m'
  | _, _ => False
  end.
