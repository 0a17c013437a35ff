(** What trades and gifts can leave behind in a linear pool. *)
From Verif Require Import Ints LinearCurve Spec LinearHistory.

(** [one_unit c u]: the first [u] of the curve, counted in 10^-18 tokens, cost at least one
    unit of collateral. *)
Definition one_unit (c : linear_curve) (u : Z) : Prop :=
  0 <= u /\
  2 * slope_den c * price_den c * 10 ^ 36 <=
  slope_num c * price_den c * u * u + 2 * slope_den c * price_num c * u * 10 ^ 18.

(** [blur c X g]: the positions up to [X] are estimated to within [g], both counted in 10^-18
    tokens.  The square root keeps 32 bits, that is, the price is known up to a 2^30th part
    and 1.5 * 10^-9. *)
Definition blur (c : linear_curve) (X g : Z) : Prop :=
  0 <= X /\
  price_num c * slope_den c * 10 ^ 18 + slope_num c * price_den c * X <=
  2 ^ 30 * (slope_num c * price_den c * g - 1414213566 * slope_den c * price_den c).

(** Tokens, counted in 10^-18, by which the curve may run ahead of the tokens sold: for each trade a
    token, the blur and what a unit of collateral buys, and what is given away. *)
Definition ahead (g u : Z) (o : lop) : Z :=
  match o with
  | Buy _ | Sell _ => 10 ^ 18 + g + u
  | GiveA x => u * Z.max 0 x
  | GiveB x => 10 ^ 18 * Z.max 0 x
  | TopUp _ => 0
  end.
Definition aheads (g u : Z) (ops : list lop) : Z := fold_right (fun o t => ahead g u o + t) 0 ops.

(** The same in whole tokens, three for each trade. *)
Definition behind (o : lop) : Z :=
  match o with
  | Buy _ | Sell _ => 3
  | GiveA x | GiveB x => Z.max 0 x
  | TopUp _ => 0
  end.
Definition behinds (ops : list lop) : Z := fold_right (fun o t => behind o + t) 0 ops.
