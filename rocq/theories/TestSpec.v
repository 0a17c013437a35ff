(** The draws of the randomized tests and what it means that a test holds. *)
From Verif Require Import Ints RandomTests.

(** [lo..hi] *)
Definition drawn (lo hi x : Z) : Prop := lo <= x < hi.
Definition u32_max : Z := 2 ^ 32 - 1.
(** [1..u64::MAX], [1..u32::MAX] and the pool supplies *)
Definition drawn64 := drawn 1 u64_max.
Definition drawn32 := drawn 1 u32_max.
Definition drawn_supply := drawn INITIAL_SWAP_POOL_AMOUNT u64_max.
(** calculator.rs 539-545: a total and a part of it *)
Definition drawn_part (total part : Z) : Prop := drawn64 total /\ drawn 1 total part.
(** offset.rs 308-314: two amounts whose sum fits *)
Definition drawn_sum (x y : Z) : Prop := exists total, drawn64 total /\ drawn 1 total y /\ x = total - y.

(** The draw is discarded or every assertion holds. *)
Definition holds (v : verdict) : Prop := v = Passed \/ v = Rejected.

(** The test of a trade passes when there is a trade and breaks off when there is none. *)
Definition passes_with_a_trade (v : verdict) (trade : outcome (Z * Z)) : Prop :=
  (exists r, trade = Val r) /\ v = Passed \/ (forall r, trade <> Val r) /\ v = Broke.

(** The test of a sale compares the values before and after, as the curve reports them with 32
    bits; the second is lower by at most one in the last bit. *)
Definition sale_value_test (verdict : verdict) (trade : outcome (Z * Z)) (value : Z -> Z -> outcome Z)
    (source_side dest_side : Z) : Prop :=
  (exists src dst v v', trade = Val (src, dst) /\
     value dest_side source_side = Val v /\ value (dest_side - dst) (source_side + src) = Val v' /\
     v - 1 <= v' /\ verdict = (if v <=? v' then Passed else Violated)) \/
  (forall r, trade <> Val r) /\ verdict = Broke.

(** The test of a withdrawal compares the values [v] and [v'] (in units of 10^-12) per
    pool token before and after; [v'] falls short by less than two units in all. *)
Definition withdrawal_value_test (verdict : verdict) (v v' n supply : Z) : Prop :=
  verdict = (if v * (supply - n) <=? v' * supply then Passed else Violated) /\
  v * (supply - n) < (v' + 2) * supply.

(** How far the [j]-th number of a sequence is from the one before, the first from 0. *)
Definition gap (seq : nat -> Z) (j : nat) : Z :=
  Z.abs (seq j - match j with O => 0 | S i => seq i end).
(** The simulation stops at the first number within one of the one before, or after
    1001 rounds. *)
Definition stops_at (seq : nat -> Z) (k : nat) : Prop :=
  (k = 1001%nat \/ (k < 1001)%nat /\ gap seq k <= 1) /\ forall j, (j < k)%nat -> 1 < gap seq j.
(** One round of the simulation for the reserve of coin 1 when that of coin 0 is [x] and the
    invariant [d]. *)
Definition sim_reserve_step (amp x d y : Z) : Z :=
  (y * y + d * d / (2 * x) * d / (4 * amp)) / (2 * y + x + d / (2 * amp) - d).
