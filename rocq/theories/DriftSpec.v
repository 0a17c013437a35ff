(** How much a single trade can move a linear pool away from its curve. *)
From Verif Require Import Ints LinearCurve Spec LedgerSpec TraceSpec LinearHistory.

(** [sway c d]: [d], counted in 10^-18 tokens, is at least half a token, and the first
    [d] of the curve cost at least two units of collateral. *)
Definition sway (c : linear_curve) (d : Z) : Prop :=
  10 ^ 18 <= 2 * d /\
  4 * slope_den c * price_den c * 10 ^ 36 <=
  slope_num c * price_den c * d * d + 2 * slope_den c * price_num c * d * 10 ^ 18.

(** The sales of a history and the purchases that leave the vault empty. *)
Fixpoint roundings (c : linear_curve) (f : Fees.fees) (st : lpool) (ops : list lop) : Z :=
  match ops with
  | [] => 0
  | o :: ops' =>
      match o with
      | Sell _ => 1
      | Buy _ => if left (lstep c f st o) =? 0 then 1 else 0
      | _ => 0
      end + roundings c f (lstep c f st o) ops'
  end.

(** The swaps on pool [k]. *)
Definition swaps (k : Z) (l : list (History.event * Token.world)) : Z :=
  Z.of_nat (length (filter (fun p => swaps_on k (fst p)) l)).
