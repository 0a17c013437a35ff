(** curve/linear_price.rs: the linear-price bonding curve. *)
From Verif Require Import Ints SplMath DfsPrecise.

(** 31-42 *)
Record linear_curve : Type := mk_linear {
  slope_num : Z;
  slope_den : Z;
  price_num : Z;
  price_den : Z
}.

(** 50-93 *)
Definition solve_quadratic_positive_root
    (k_num k_den e_num e_den lhs : Z) (round_sqrt_up : bool) : outcome Z :=
  let? four := dfs_new 4 in
  let? k4 := dfs_mul k_num four in
  let? k4l := dfs_mul k4 lhs in
  let? four_k_lhs := dfs_div k4l k_den in
  let? e2 := dfs_mul e_num e_num in
  let? e2d := dfs_div e2 e_den in
  let? e2dd := dfs_div e2d e_den in
  let? disc := dfs_add e2dd four_k_lhs in
  let? root := dfs_sqrt_u64 disc round_sqrt_up in
  let? e_value := dfs_div e_num e_den in
  let? numerator :=
    match dfs_sub root e_value with
    | Val v => Val v
    | Non => dfs_new 0
    | Panic => Panic
    end in
  let? n1 := dfs_mul numerator k_den in
  let? n2 := dfs_div n1 k_num in
  let? two := dfs_new 2 in
  dfs_div n2 two.

(** 104-126 *)
Definition amt_a_locked_at_b_value (c : linear_curve) (b : Z) : outcome Z :=
  let? sn := dfs_new (slope_num c) in
  let? m1 := dfs_mul sn b in
  let? m2 := dfs_mul m1 b in
  let? sd := dfs_new (slope_den c) in
  let? m3 := dfs_div m2 sd in
  let? two := dfs_new 2 in
  let? half_m_b_squared := dfs_div m3 two in
  let? pn := dfs_new (price_num c) in
  let? p1 := dfs_mul pn b in
  let? pd := dfs_new (price_den c) in
  let? a0_times_b := dfs_div p1 pd in
  dfs_add half_m_b_squared a0_times_b.

(** 130-161 *)
Definition b_value_with_amt_a_locked (c : linear_curve) (a : Z) (round_sqrt_up : bool)
    : outcome Z :=
  let? sn := dfs_new (slope_num c) in
  let? sd := dfs_new (slope_den c) in
  let? one := dfs_new 1 in
  let? k_num := dfs_mul sn one in
  let? two := dfs_new 2 in
  let? k_den := dfs_mul sd two in
  let? e_num := dfs_new (price_num c) in
  let? e_den := dfs_new (price_den c) in
  solve_quadratic_positive_root k_num k_den e_num e_den a round_sqrt_up.

(** 166-186 *)
Definition maximum_a_remaining (c : linear_curve) (a_start b_start source dest : Z)
    : outcome (Z * Z) :=
  let? d := dfs_new dest in
  let? max_b := dfs_add b_start d in
  let? max_a := amt_a_locked_at_b_value c max_b in
  let? diff := dfs_sub max_a a_start in
  let? remaining := dfs_to_imprecise diff in
  if remaining <=? source then Val (remaining, dest) else Non.

(** 190-228: buy bonded tokens B with collateral A. *)
Definition swap_a_to_b (c : linear_curve) (source swap_source swap_dest : Z)
    : outcome (Z * Z) :=
  let? a_start := dfs_new swap_source in
  let? b_start := b_value_with_amt_a_locked c a_start true in
  match maximum_a_remaining c a_start b_start source swap_dest with
  | Val r => Val r
  | Panic => Panic
  | Non =>
      let? s := dfs_new source in
      let? a_end := dfs_add a_start s in
      let? b_end := b_value_with_amt_a_locked c a_end false in
      let? difference := dfs_sub b_end b_start in
      let? floored := dfs_floor difference in
      let? destination := dfs_to_imprecise floored in
      Val (source, destination)
  end.

(** 230-277: sell bonded tokens B for collateral A. *)
Definition swap_b_to_a (c : linear_curve) (source swap_source swap_dest : Z)
    : outcome (Z * Z) :=
  let? a_start := dfs_new swap_dest in
  let? b_start := b_value_with_amt_a_locked c a_start true in
  let? s := dfs_new source in
  let (b_end0, b_end_is_negative) := dfs_unsigned_sub b_start s in
  let? b_end := dfs_ceiling b_end0 in
  if b_end_is_negative then
    let? taken := dfs_to_imprecise b_start in
    Val (taken, swap_dest)
  else
    let? a_end := amt_a_locked_at_b_value c b_end in
    let? a := dfs_new swap_dest in
    let? difference := dfs_sub a a_end in
    let? floored := dfs_floor difference in
    let? destination := dfs_to_imprecise floored in
    Val (source, destination).

(** 281-302 *)
Definition is_curve_param_valid (c : linear_curve) : outcome unit :=
  if (slope_num c =? 0) || (slope_den c =? 0) || (price_den c =? 0) then Non
  else
    let? num := dfs_new (slope_num c) in
    let? den := dfs_new (slope_den c) in
    let? one := dfs_new 1 in
    let? e18 := dfs_new 1000000000000000000 in
    let? minimum := dfs_div one e18 in
    let? slope := dfs_div num den in
    if dfs_greater_than_or_equal slope minimum then Val tt else Non.

(** 307-328 *)
Definition linear_swap (c : linear_curve) (source swap_source swap_dest : Z)
    (d : trade_direction) : outcome (Z * Z) :=
  let? (src, dst) :=
    match d with
    | AtoB => swap_a_to_b c source swap_source swap_dest
    | BtoA => swap_b_to_a c source swap_source swap_dest
    end in
  let? src' := map_zero_to_none src in
  let? dst' := map_zero_to_none dst in
  Val (src', dst').

(** 393-398 *)
Definition linear_validate (c : linear_curve) : result unit :=
  match is_curve_param_valid c with
  | Val _ => Ok tt
  | Non => Err (ESwap InvalidCurve)
  | Panic => Err EPanic
  end.

(** 402-411 *)
Definition linear_validate_supply (a b : Z) : result unit :=
  do! _ := guard (b =? 0) (ESwap EmptySupply) in
  guard (negb (a =? 0)) (ESwap InvalidSupply).

(** 420-443: the result is the raw value of an spl PreciseNumber. *)
Definition linear_normalized_value (c : linear_curve) (a b : Z) : outcome Z :=
  let? a' := dfs_new a in
  let? b_value_of_a := b_value_with_amt_a_locked c a' false in
  let? b' := dfs_new b in
  let? total := dfs_add b_value_of_a b' in
  let value_bits := bits total in
  Val (if 32 <? value_bits then shr256 total (value_bits - 32) else total).
