(** curve/stable.rs; [amp] is the curve's only field. *)
From Verif Require Import Ints SplMath ConstantProduct.

(** 19-21 *)
Definition N_COINS : Z := 2.
Definition ITERATIONS : nat := 32.

(** 24-30; the loop [for _ in 1..b] runs b-1 times *)
Fixpoint repeat_mul (n : nat) (acc a : Z) : outcome Z :=
  match n with
  | O => Val acc
  | S n' => let? acc' := mul_in u256_max acc a in repeat_mul n' acc' a
  end.
Definition checked_u8_power (a : Z) (b : nat) : outcome Z := repeat_mul (b - 1) a a.

(** 33-39 *)
Fixpoint repeat_add (n : nat) (acc a : Z) : outcome Z :=
  match n with
  | O => Val acc
  | S n' => let? acc' := add_in u256_max acc a in repeat_add n' acc' a
  end.
Definition checked_u8_mul (a : Z) (b : nat) : outcome Z := repeat_add (b - 1) a a.

(** 49-61 *)
Definition calculate_step (initial_d leverage sum_x d_product : Z) : outcome Z :=
  let? leverage_mul := mul_in u256_max leverage sum_x in
  let? d_p_mul := checked_u8_mul d_product 2 in
  let? l0 := add_in u256_max leverage_mul d_p_mul in
  let? l_val := mul_in u256_max l0 initial_d in
  let? l1 := csub leverage 1 in
  let? leverage_sub := mul_in u256_max initial_d l1 in
  let? n_coins_sum := checked_u8_mul d_product 3 in
  let? r_val := add_in u256_max leverage_sub n_coins_sum in
  cdiv l_val r_val.

(** 79-94 *)
Fixpoint compute_d_loop (n : nat) (leverage a_coins b_coins sum_x d : Z) : outcome Z :=
  match n with
  | O => Val d
  | S n' =>
      let? m1 := mul_in u256_max d d in
      let? p1 := cdiv m1 a_coins in
      let? m2 := mul_in u256_max p1 d in
      let? p2 := cdiv m2 b_coins in
      let? d' := calculate_step d leverage sum_x p2 in
      if d' =? d then Val d' else compute_d_loop n' leverage a_coins b_coins sum_x d'
  end.

(** [u128::try_from(x).ok()] *)
Definition try_u128 (x : Z) : outcome Z := if x <=? u128_max then Val x else Non.

(** 66-97 *)
Definition compute_d (leverage amount_a amount_b : Z) : outcome Z :=
  let? a2 := checked_u8_mul amount_a 2 in
  let? a_coins := add_in u256_max a2 1 in
  let? b2 := checked_u8_mul amount_b 2 in
  let? b_coins := add_in u256_max b2 1 in
  let? sum_x := add_in u128_max amount_a amount_b in
  if sum_x =? 0 then Val 0
  else
    let? d := compute_d_loop ITERATIONS leverage a_coins b_coins sum_x sum_x in
    try_u128 d.

(** 122-131 *)
Fixpoint new_dest_loop (n : nat) (b c d_val y : Z) : outcome Z :=
  match n with
  | O => Val y
  | S n' =>
      let? y2 := checked_u8_power y 2 in
      let? num := add_in u256_max y2 c in
      let? yy := checked_u8_mul y 2 in
      let? yyb := add_in u256_max yy b in
      let? den := csub yyb d_val in
      let? y' := cdiv num den in
      if y' =? y then Val y' else new_dest_loop n' b c d_val y'
  end.

(** 103-133 *)
Definition compute_new_destination_amount (leverage new_source d_val : Z) : outcome Z :=
  let? d3 := checked_u8_power d_val 3 in
  let? s4 := checked_u8_mul new_source 4 in
  let? s4l := mul_in u256_max s4 leverage in
  let? c := cdiv d3 s4l in
  let? dl := cdiv d_val leverage in
  let? b := add_in u256_max new_source dl in
  let? y := new_dest_loop ITERATIONS b c d_val d_val in
  try_u128 y.

(** 137-159 *)
Definition stable_swap (amp source swap_source swap_dest : Z) : outcome (Z * Z) :=
  let? leverage := mul_in u64_max amp N_COINS in
  let? new_source := add_in u128_max swap_source source in
  let? d := compute_d leverage swap_source swap_dest in
  let? new_dest := compute_new_destination_amount leverage new_source d in
  let? dst := csub swap_dest new_dest in
  Val (source, dst).

(** 207-238 *)
Definition stable_deposit_single (amp source swap_a swap_b pool_supply : Z) (d : trade_direction)
    : outcome Z :=
  if source =? 0 then Val 0
  else
    let? leverage := mul_in u64_max amp N_COINS in
    let? d0c := compute_d leverage swap_a swap_b in
    let? d0 := spl_new d0c in
    let (dep, other) := match d with AtoB => (swap_a, swap_b) | BtoA => (swap_b, swap_a) end in
    let? updated := add_in u128_max dep source in
    let? d1c := compute_d leverage updated other in
    let? d1 := spl_new d1c in
    let? diff := spl_sub d1 d0 in
    let? supply := spl_new pool_supply in
    let? m := spl_mul diff supply in
    let? final := spl_div m d0 in
    let? f := spl_floor final in
    spl_to_imprecise f.

(** 240-271 *)
Definition stable_withdraw_single (amp source swap_a swap_b pool_supply : Z) (d : trade_direction)
    : outcome Z :=
  if source =? 0 then Val 0
  else
    let? leverage := mul_in u64_max amp N_COINS in
    let? d0c := compute_d leverage swap_a swap_b in
    let? d0 := spl_new d0c in
    let (wd, other) := match d with AtoB => (swap_a, swap_b) | BtoA => (swap_b, swap_a) end in
    let? updated := csub wd source in
    let? d1c := compute_d leverage updated other in
    let? d1 := spl_new d1c in
    let? diff := spl_sub d0 d1 in
    let? supply := spl_new pool_supply in
    let? m := spl_mul diff supply in
    let? final := spl_div m d0 in
    let? f := spl_ceiling final in
    spl_to_imprecise f.

(** 273-286, the non-test build *)
Definition stable_normalized_value (amp swap_a swap_b : Z) : outcome Z :=
  let? leverage := mul_in u64_max amp N_COINS in
  let? d := compute_d leverage swap_a swap_b in
  spl_new d.
