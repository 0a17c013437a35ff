(** The parts of the external crate spl-math 0.1.0 used by the program.  The
    crate's source is not in /repo; this transcription is part of the trusted
    base (DESIGN.md). *)
From Verif Require Import Ints.

(** spl_math::checked_ceil_div, for [u128] (m = u128_max) and [U256]
    (m = u256_max).  A quotient of zero is rounded to nearest instead of up, and
    on an inexact division the divisor is lowered to the least value giving the
    same (rounded-up) quotient. *)
Definition checked_ceil_div (m a rhs : Z) : outcome (Z * Z) :=
  let? q := cdiv a rhs in
  if q =? 0 then
    let? twice := mul_in m a 2 in
    if rhs <=? twice then Val (1, 0) else Val (0, 0)
  else
    let? r := crem a rhs in
    if 0 <? r then
      let? q1 := add_in m q 1 in
      let? d := cdiv a q1 in
      let? r1 := crem a q1 in
      if 0 <? r1 then
        let? d1 := add_in m d 1 in
        Val (q1, d1)
      else Val (q1, d)
    else Val (q, rhs).

(** spl_math::precise_number::PreciseNumber: a [U256] scaled by 10^12. *)
Definition SPL_ONE : Z := 1000000000000.
Definition SPL_HALF : Z := 500000000000.

Definition spl_new (v : Z) : outcome Z := mul_in u256_max v SPL_ONE.

Definition spl_to_imprecise (x : Z) : outcome Z :=
  let? c := add_in u256_max x SPL_HALF in
  let? q := cdiv c SPL_ONE in
  as_u128 q.

Definition spl_floor (x : Z) : outcome Z :=
  let? q := cdiv x SPL_ONE in
  mul_in u256_max q SPL_ONE.

Definition spl_ceiling (x : Z) : outcome Z :=
  let? c := add_in u256_max x (SPL_ONE - 1) in
  let? q := cdiv c SPL_ONE in
  mul_in u256_max q SPL_ONE.

Definition spl_div (x y : Z) : outcome Z :=
  if y =? 0 then Non
  else
    match mul_in u256_max x SPL_ONE with
    | Val v => let? c := add_in u256_max v SPL_HALF in cdiv c y
    | Non =>
        let? c := add_in u256_max x SPL_HALF in
        let? q := cdiv c y in
        mul_in u256_max q SPL_ONE
    | Panic => Panic
    end.

Definition spl_mul (x y : Z) : outcome Z :=
  match mul_in u256_max x y with
  | Val v => let? c := add_in u256_max v SPL_HALF in cdiv c SPL_ONE
  | Non =>
      if y <=? x
      then let? q := cdiv x SPL_ONE in mul_in u256_max q y
      else let? q := cdiv y SPL_ONE in mul_in u256_max q x
  | Panic => Panic
  end.

Definition spl_add (x y : Z) : outcome Z := add_in u256_max x y.
Definition spl_sub (x y : Z) : outcome Z := csub x y.

(** [almost_eq] with the crate's [PRECISION] of 100 units. *)
Definition spl_almost_eq (x y : Z) : bool := Z.abs (x - y) <? 100.

(** newtonian_root_approximation specialised to root = 2 (the only use): the
    loop runs at most [n] more times. *)
Fixpoint spl_sqrt_loop (n : nat) (x guess last : Z) : outcome Z :=
  match n with
  | O => Val guess
  | S n' =>
      let? first := spl_mul SPL_ONE guess in
      let? second := spl_div x guess in
      let? sum := spl_add first second in
      let? two := spl_new 2 in
      let? g := spl_div sum two in
      if spl_almost_eq last g then Val g else spl_sqrt_loop n' x g g
  end.

(** PreciseNumber::sqrt, MAX_APPROXIMATION_ITERATIONS = 100. *)
Definition spl_sqrt (x : Z) : outcome Z :=
  let? two := spl_new 2 in
  let? one := spl_new 1 in
  let? s := spl_add x one in
  let? guess := spl_div s two in
  if x =? 0 then Val 0 else spl_sqrt_loop 100 x guess guess.
