(** Machine integers.  Values are unbounded [Z]; every checked operation of the
    Rust code is an explicit range check.  [add_in m]/[mul_in m] are
    [checked_add]/[checked_mul] of the unsigned type whose largest value is
    [m]; subtraction, division and remainder do not depend on the width. *)
From Verif Require Export Outcome.

Definition u64_max : Z := 2 ^ 64 - 1.
Definition u128_max : Z := 2 ^ 128 - 1.
Definition u256_max : Z := 2 ^ 256 - 1.

Definition is_u8 (x : Z) : Prop := 0 <= x < 256.
Definition is_u64 (x : Z) : Prop := 0 <= x <= u64_max.
Definition is_u128 (x : Z) : Prop := 0 <= x <= u128_max.
Definition is_u256 (x : Z) : Prop := 0 <= x <= u256_max.

Definition add_in (m a b : Z) : outcome Z :=
  if a + b <=? m then Val (a + b) else Non.
Definition mul_in (m a b : Z) : outcome Z :=
  if a * b <=? m then Val (a * b) else Non.
Definition csub (a b : Z) : outcome Z :=
  if b <=? a then Val (a - b) else Non.
Definition cdiv (a b : Z) : outcome Z :=
  if b =? 0 then Non else Val (a / b).
Definition crem (a b : Z) : outcome Z :=
  if b =? 0 then Non else Val (a mod b).

(** [a + b] with overflow checks on: panics instead of wrapping. *)
Definition add_or_panic (m a b : Z) : outcome Z :=
  if a + b <=? m then Val (a + b) else Panic.

(** [saturating_sub] *)
Definition sat_sub (a b : Z) : Z := Z.max 0 (a - b).

(** crate uint 0.8.5, [as_u64]/[as_u128]: panic when the value does not fit. *)
Definition as_u64 (x : Z) : outcome Z := if x <=? u64_max then Val x else Panic.
Definition as_u128 (x : Z) : outcome Z := if x <=? u128_max then Val x else Panic.

(** crate uint 0.8.5, [bits]: position of the highest set bit, 0 for 0. *)
Definition bits (x : Z) : Z := if x =? 0 then 0 else Z.log2 x + 1.

(** curve/calculator.rs 19-25 *)
Definition map_zero_to_none (x : Z) : outcome Z := if x =? 0 then Non else Val x.

(** curve/calculator.rs 12 *)
Definition INITIAL_SWAP_POOL_AMOUNT : Z := 1000000000.

(** curve/calculator.rs 32-37 *)
Inductive trade_direction : Type := AtoB | BtoA.
(** curve/calculator.rs 53-58 *)
Definition opposite (d : trade_direction) : trade_direction :=
  match d with AtoB => BtoA | BtoA => AtoB end.
(** curve/calculator.rs 43-48 *)
Inductive round_direction : Type := Floor | Ceiling.
