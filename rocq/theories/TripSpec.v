(** Counting deposits in histories, and what fees give away. *)
From Verif Require Import Ints Fees LinearCurve SwapCurve Codec Token Processor Api History LedgerSpec TraceSpec.

(** The event is a deposit of both tokens in the pool stored at [k]. *)
Definition enters (k : Z) (ev : event) : bool :=
  match ev with
  | Instruction _ (DepositAll accounts _ _ _) => nth 0 accounts 0 =? k
  | _ => false
  end.

(** How many of them there are. *)
Definition entries (k : Z) (l : list (event * world)) : Z :=
  Z.of_nat (length (filter (fun x => enters k (fst x)) l)).

(** The fee on half of [n] tokens, at least one token each. *)
Definition half_fee (f : fees) (n : Z) : Z :=
  if trade_fee_num f =? 0 then 0 else Z.max 1 (Z.max 1 (n / 2) * trade_fee_num f / trade_fee_den f).

(** What the fees make others lose in one step, in token A at price [p]: a one-sided withdrawal is
    let off the fee on half of it, and a swap after which there are more pool tokens may have
    created one too many. *)
Definition gift (k : Z) (s : swap_state) (p : Z) (w : world) (ev : event) (w' : world) : Z :=
  match ev with
  | Instruction _ (WithdrawSingle accounts n _) =>
      if nth 0 accounts 0 =? k
      then (if balance w' (st_token_a s) <? balance w (st_token_a s) then 1 else p) * half_fee (st_fees s) n
      else 0
  | Instruction _ (Swap accounts _ _) =>
      if (nth 0 accounts 0 =? k) && (shares w s <? shares w' s)
      then (worth w s p + shares w s - 1) / shares w s
      else 0
  | _ => 0
  end.

(** In a whole history. *)
Fixpoint gifts (k : Z) (s : swap_state) (p : Z) (w : world) (l : list (event * world)) : Z :=
  match l with
  | [] => 0
  | (ev, w') :: l' => gift k s p w ev w' + gifts k s p w' l'
  end.
