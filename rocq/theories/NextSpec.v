(** A second curve that starts where a first one ends (README, lines 7-7). *)
From Verif Require Import Ints LinearCurve.

(** [continues c D c2]: same slope, and [c2] starts at the price [c] has reached after
    [D] tokens. *)
Definition continues (c : linear_curve) (D : Z) (c2 : linear_curve) : Prop :=
  slope_num c * slope_den c2 = slope_num c2 * slope_den c /\
  price_num c2 * (price_den c * slope_den c) =
  (price_num c * slope_den c + slope_num c * D * price_den c) * price_den c2.
