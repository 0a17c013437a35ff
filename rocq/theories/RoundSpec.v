(** Parameters of a linear curve whose rounding error is small. *)
From Verif Require Import Ints LinearCurve.

(** [fine c T]: with slope [s] and starting price [p], both [1 <= s * T] and
    [4 * (2 * s + 1) <= (s + p) * s * (T - 1)].  [T] is counted in units of 10^-18
    tokens and bounds how far the rounded positions lie from the exact ones. *)
Definition fine (c : linear_curve) (T : Z) : Prop :=
  0 < T /\ slope_den c <= slope_num c * T /\
  4 * price_den c * slope_den c * (2 * slope_num c + slope_den c) <=
  (slope_num c * price_den c + price_num c * slope_den c) * slope_num c * (T - 1).

(** Starting price [p]: [p * (1 - 4 * T * 10^-18)] is at least [1 + 4 * 10^-18] units of collateral
    per token. *)
Definition costly (c : linear_curve) (T : Z) : Prop :=
  (10 ^ 18 + 4) * price_den c <= price_num c * (10 ^ 18 - 4 * T).
