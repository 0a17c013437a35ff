(** Amounts of collateral at which the square root of the linear curve aborts. *)
From Verif Require Import Ints DfsPrecise LinearCurve Spec.

(** dfs_precise_number.rs: the root keeps the leading 64 bits of its argument and rounds them up; 64
    one bits followed by something else do not fit any more. *)
Definition blocked_at (c : linear_curve) (k a : Z) : Prop :=
  1 <= k /\ (2 ^ 64 - 1) * 4 ^ k < disc c a < 2 ^ 64 * 4 ^ k.
Definition blocked (c : linear_curve) (a : Z) : Prop := exists k, blocked_at c k a.

(** The gift of collateral that takes a vault with [a] units into the range of [k]. *)
Definition gift (c : linear_curve) (k a : Z) : Z :=
  slope_den c * ((2 ^ 64 - 1) * 4 ^ k - disc c a + 1) / (2 * slope_num c * ONE) + 1.
