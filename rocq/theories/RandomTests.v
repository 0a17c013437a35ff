(** The program's own randomized tests: the [proptest!] blocks of curve/*.rs and
    the check functions of curve/calculator.rs 195-548.  A test is a function of
    the drawn values; the ranges they are drawn from are in TestSpec.v. *)
From Verif Require Import Ints SplMath LinearCurve SwapCurve.

(** How a run ends: all assertions held; the draw was discarded by
    [prop_assume!]; an [unwrap] on nothing or an arithmetic overflow stopped the
    test before its assertions; an assertion failed. *)
Inductive verdict : Type := Passed | Rejected | Broke | Violated.

Inductive test (A : Type) : Type :=
| Go (a : A)
| Stop (v : verdict).
Arguments Go {A} a.
Arguments Stop {A} v.

Definition tbind {A B} (m : test A) (k : A -> test B) : test B :=
  match m with Go a => k a | Stop v => Stop v end.
Notation "'let!' x := m 'in' k" := (tbind m (fun x => k))
  (at level 200, x pattern, m at level 100, k at level 200, right associativity).

Definition verdict_of (m : test unit) : verdict := match m with Go _ => Passed | Stop v => v end.

(** [.unwrap()] *)
Definition unwrap {A} (m : outcome A) : test A := match m with Val a => Go a | _ => Stop Broke end.
(** [prop_assume!], [assert!] *)
Definition assume (b : bool) : test unit := if b then Go tt else Stop Rejected.
Definition assert (b : bool) : test unit := if b then Go tt else Stop Violated.
(** [+], [-], [*] on u128 in a test build, where overflow aborts *)
Definition tadd (x y : Z) : test Z := unwrap (add_in u128_max x y).
Definition tsub (x y : Z) : test Z := unwrap (csub x y).
Definition tmul (x y : Z) : test Z := unwrap (mul_in u128_max x y).

(** calculator.rs 203 *)
Definition CONVERSION_BASIS_POINTS_GUARANTEE : Z := 50.

Definition in_order (d : trade_direction) (source dest : Z) : Z * Z :=
  match d with AtoB => (source, dest) | BtoA => (dest, source) end.

(** calculator.rs 212-295 *)
Definition check_deposit_token_conversion (c : curve)
    (source swap_source swap_dest : Z) (d : trade_direction) (pool_supply epsilon_bp : Z) : test unit :=
  let amount_to_swap := source / 2 in
  let! (src, dst) := unwrap (swap_without_fees c amount_to_swap swap_source swap_dest d) in
  let (a, b) := in_order d swap_source swap_dest in
  let! one_side := unwrap (calc_deposit_single c source a b pool_supply d) in
  let! new_source := tadd swap_source src in
  let! new_dest := tsub swap_dest dst in
  let (a', b') := in_order d new_source new_dest in
  let! rest := tsub source src in
  let! from_source := unwrap (calc_deposit_single c rest a' b' pool_supply d) in
  let! supply' := tadd pool_supply from_source in
  let! from_dest := unwrap (calc_deposit_single c dst a' b' supply' (opposite d)) in
  let! separate := tadd from_source from_dest in
  let! scaled := tmul separate epsilon_bp in
  let epsilon := Z.max 1 (scaled / 10000) in
  let difference := if separate <=? one_side then one_side - separate else separate - one_side in
  assert (difference <=? epsilon).

(** calculator.rs 304-379 *)
Definition check_withdraw_token_conversion (c : curve)
    (pool_tokens pool_supply a b : Z) (d : trade_direction) (epsilon_bp : Z) : test unit :=
  let! (wa, wb) := unwrap (pool_tokens_to_trading_tokens c pool_tokens pool_supply a b Floor) in
  let! a' := tsub a wa in
  let! b' := tsub b wb in
  let! source :=
    match d with
    | AtoB =>
        let! (_, dst) := unwrap (swap_without_fees c wa a' b' d) in
        tadd wb dst
    | BtoA =>
        let! (_, dst) := unwrap (swap_without_fees c wb b' a' d) in
        tadd wa dst
    end in
  let! single := unwrap (calc_withdraw_single c source a b pool_supply (opposite d)) in
  let! scaled := tmul pool_tokens epsilon_bp in
  let epsilon := Z.max 1 (scaled / 10000) in
  let difference := if single <=? pool_tokens then pool_tokens - single else single - pool_tokens in
  assert (difference <=? epsilon).

(** calculator.rs 390-437 *)
Definition check_curve_value_from_swap (c : curve)
    (source swap_source swap_dest : Z) (d : trade_direction) : test unit :=
  let! (src, dst) := unwrap (swap_without_fees c source swap_source swap_dest d) in
  let (a, b) := in_order d swap_source swap_dest in
  let! previous_value := unwrap (normalized_value c a b) in
  let! new_source := unwrap (add_in u128_max swap_source src) in
  let! new_dest := unwrap (csub swap_dest dst) in
  let (a', b') := in_order d new_source new_dest in
  let! new_value := unwrap (normalized_value c a' b') in
  let! _ := assert (previous_value <=? new_value) in
  let! difference := unwrap (spl_sub new_value previous_value) in
  let! difference := unwrap (spl_to_imprecise difference) in
  assert (difference <=? 1).

(** calculator.rs 445-488; the products are of type U256 *)
Definition check_pool_value_from_deposit (c : curve) (pool_tokens pool_supply a b : Z) : test unit :=
  let! (da, db) := unwrap (pool_tokens_to_trading_tokens c pool_tokens pool_supply a b Ceiling) in
  let! a' := tadd a da in
  let! b' := tadd b db in
  let! supply' := tadd pool_supply pool_tokens in
  let! l := unwrap (mul_in u256_max a' pool_supply) in
  let! r := unwrap (mul_in u256_max a supply') in
  let! _ := assert (r <=? l) in
  let! l := unwrap (mul_in u256_max b' pool_supply) in
  let! r := unwrap (mul_in u256_max b supply') in
  assert (r <=? l).

(** calculator.rs 526-537, and 598-606 and 648-656 of constant_price.rs: the value
    of a pool token has not decreased *)
Definition check_value_per_token (value new_value pool_supply new_pool_supply : Z) : test unit :=
  let! s := unwrap (spl_new pool_supply) in
  let! s' := unwrap (spl_new new_pool_supply) in
  let! l := unwrap (spl_mul new_value s) in
  let! r := unwrap (spl_mul value s') in
  assert (r <=? l).

(** calculator.rs 496-538 *)
Definition check_pool_value_from_withdraw (c : curve) (pool_tokens pool_supply a b : Z) : test unit :=
  let! (wa, wb) := unwrap (pool_tokens_to_trading_tokens c pool_tokens pool_supply a b Floor) in
  let! a' := tsub a wa in
  let! b' := tsub b wb in
  let! supply' := tsub pool_supply pool_tokens in
  let! value := unwrap (normalized_value c a b) in
  let! new_value := unwrap (normalized_value c a' b') in
  check_value_per_token value new_value pool_supply supply'.

(** ** constant_price.rs *)

(** 388-418 *)
Definition price_deposit_conversion_a_to_b (source swap_source swap_dest pool_supply price : Z) : verdict :=
  verdict_of (
    let traded := source / 2 in
    let! _ := assume (1 <=? traded / price) in
    let! _ := assume (traded / price <=? swap_dest) in
    check_deposit_token_conversion (ConstantPrice price) source swap_source swap_dest AtoB pool_supply
      CONVERSION_BASIS_POINTS_GUARANTEE).

(** 420-452 *)
Definition price_deposit_conversion_b_to_a (source swap_source swap_dest pool_supply price : Z) : verdict :=
  verdict_of (
    let! v := tmul price source in
    let! _ := assume (v / 2 <=? swap_dest) in
    check_deposit_token_conversion (ConstantPrice price) source swap_source swap_dest BtoA pool_supply
      CONVERSION_BASIS_POINTS_GUARANTEE).

(** 474, 579 and 627: "make sure we trade at least one of each token" *)
Definition assume_one_of_each (value pool_tokens pool_supply price : Z) : test unit :=
  let! v := unwrap (spl_to_imprecise value) in
  let! l := tmul pool_tokens v in
  let! p2 := tmul 2 price in
  let! r := tmul p2 pool_supply in
  assume (r <=? l).

(** 454-507 *)
Definition price_withdraw_conversion (pool_tokens pool_supply a b price : Z) : verdict :=
  verdict_of (
    let c := ConstantPrice price in
    let! value := unwrap (normalized_value c a b) in
    let! _ := assume_one_of_each value pool_tokens pool_supply price in
    let! (wa, wb) := unwrap (pool_tokens_to_trading_tokens c pool_tokens pool_supply a b Floor) in
    let! _ := assume (wa <=? a) in
    let! _ := assume (wb <=? b) in
    let! _ := check_withdraw_token_conversion c pool_tokens pool_supply a b AtoB
      CONVERSION_BASIS_POINTS_GUARANTEE in
    check_withdraw_token_conversion c pool_tokens pool_supply a b BtoA
      CONVERSION_BASIS_POINTS_GUARANTEE).

(** 509-530 *)
Definition price_value_swap_a_to_b (source swap_source swap_dest price : Z) : verdict :=
  verdict_of (
    let! _ := assume (1 <=? source / price) in
    let! _ := assume (source / price <=? swap_dest) in
    check_curve_value_from_swap (ConstantPrice price) source swap_source swap_dest AtoB).

(** 532-558 *)
Definition price_value_swap_b_to_a (source swap_source swap_dest price : Z) : verdict :=
  verdict_of (
    let! v := tmul price source in
    let! _ := assume (v <=? swap_dest) in
    check_curve_value_from_swap (ConstantPrice price) source swap_source swap_dest BtoA).

(** 560-607 *)
Definition price_value_deposit (pool_tokens pool_supply a b price : Z) : verdict :=
  verdict_of (
    let c := ConstantPrice price in
    let! value := unwrap (normalized_value c a b) in
    let! _ := assume_one_of_each value pool_tokens pool_supply price in
    let! (da, db) := unwrap (pool_tokens_to_trading_tokens c pool_tokens pool_supply a b Ceiling) in
    let! a' := tadd a da in
    let! b' := tadd b db in
    let! supply' := tadd pool_supply pool_tokens in
    let! new_value := unwrap (normalized_value c a' b') in
    check_value_per_token value new_value pool_supply supply').

(** 609-657 *)
Definition price_value_withdraw (pool_tokens pool_supply a b price : Z) : verdict :=
  verdict_of (
    let c := ConstantPrice price in
    let! value := unwrap (normalized_value c a b) in
    let! _ := assume_one_of_each value pool_tokens pool_supply price in
    let! _ := assume (pool_tokens <=? pool_supply) in
    let! (wa, wb) := unwrap (pool_tokens_to_trading_tokens c pool_tokens pool_supply a b Floor) in
    let! _ := assume (wa <=? a) in
    let! _ := assume (wb <=? b) in
    let! a' := tsub a wa in
    let! b' := tsub b wb in
    let! supply' := tsub pool_supply pool_tokens in
    let! new_value := unwrap (normalized_value c a' b') in
    check_value_per_token value new_value pool_supply supply').

(** ** constant_product.rs, and the same tests of stable.rs *)

(** constant_product.rs 417-448, stable.rs 539-571 *)
Definition deposit_conversion (c : curve) (epsilon_bp source swap_source swap_dest pool_supply : Z) : verdict :=
  verdict_of (
    let! _ := check_deposit_token_conversion c source swap_source swap_dest AtoB pool_supply epsilon_bp in
    check_deposit_token_conversion c source swap_source swap_dest BtoA pool_supply epsilon_bp).

(** constant_product.rs 450-477, stable.rs 573-601 *)
Definition withdraw_conversion (c : curve) (pool_tokens pool_supply a b : Z) : verdict :=
  verdict_of (
    let! _ := check_withdraw_token_conversion c pool_tokens pool_supply a b AtoB
      CONVERSION_BASIS_POINTS_GUARANTEE in
    check_withdraw_token_conversion c pool_tokens pool_supply a b BtoA
      CONVERSION_BASIS_POINTS_GUARANTEE).

(** constant_product.rs 479-495, stable.rs 520-537 *)
Definition value_swap (c : curve) (source swap_source swap_dest : Z) : verdict :=
  verdict_of (check_curve_value_from_swap c source swap_source swap_dest AtoB).

(** constant_product.rs 511-512, offset.rs 529-530 with [o] the offset, ... *)
Definition assume_shares (o pool_tokens pool_supply a b : Z) : test unit :=
  let! x := tmul pool_tokens a in
  let! qa := unwrap (cdiv x pool_supply) in
  let! _ := assume (1 <=? qa) in
  let! b' := tadd b o in
  let! y := tmul pool_tokens b' in
  let! qb := unwrap (cdiv y pool_supply) in
  assume (1 <=? qb).

(** constant_product.rs 497-522, stable.rs 461-489 *)
Definition value_deposit (c : curve) (pool_tokens pool_supply a b : Z) : verdict :=
  verdict_of (
    let! _ := assume_shares 0 pool_tokens pool_supply a b in
    check_pool_value_from_deposit c pool_tokens pool_supply a b).

(** constant_product.rs 524-549, stable.rs 491-518 *)
Definition value_withdraw (c : curve) (pool_tokens pool_supply a b : Z) : verdict :=
  verdict_of (
    let! _ := assume_shares 0 pool_tokens pool_supply a b in
    check_pool_value_from_withdraw c pool_tokens pool_supply a b).

(** ** offset.rs *)

(** 317-358 *)
Definition offset_deposit_conversion_a_to_b (source swap_source swap_dest pool_supply o : Z) : verdict :=
  verdict_of (
    let! l := tmul (source / 2) o in
    let! r := tmul swap_source swap_dest in
    let! _ := assume (l <=? r) in
    let! s := tadd swap_dest o in
    let! _ := assume (s * swap_source <=? u128_max) in
    check_deposit_token_conversion (Offset o) source swap_source swap_dest AtoB pool_supply
      CONVERSION_BASIS_POINTS_GUARANTEE).

(** 360-392 *)
Definition offset_deposit_conversion_b_to_a (source swap_source swap_dest pool_supply o : Z) : verdict :=
  verdict_of (
    let! s := tadd swap_source o in
    let! _ := assume (s * swap_dest <=? u128_max) in
    check_deposit_token_conversion (Offset o) source swap_source swap_dest BtoA pool_supply
      CONVERSION_BASIS_POINTS_GUARANTEE).

(** 394-445 *)
Definition offset_withdraw_conversion (pool_tokens pool_supply a b o : Z) : verdict :=
  verdict_of (
    let c := Offset o in
    let! s := tadd b o in
    let! _ := assume (s * a <=? u128_max) in
    let! _ := assume_shares o pool_tokens pool_supply a b in
    let! (_, wb) := unwrap (pool_tokens_to_trading_tokens c pool_tokens pool_supply a b Floor) in
    let! _ := assume (wb <=? b) in
    let! _ := check_withdraw_token_conversion c pool_tokens pool_supply a b AtoB
      CONVERSION_BASIS_POINTS_GUARANTEE in
    check_withdraw_token_conversion c pool_tokens pool_supply a b BtoA
      CONVERSION_BASIS_POINTS_GUARANTEE).

(** 447-482 *)
Definition offset_value_swap_a_to_b (source swap_source swap_dest o : Z) : verdict :=
  verdict_of (
    let! s := tadd swap_dest o in
    let! _ := assume (s * swap_source <=? u128_max) in
    let! l := tmul source o in
    let! r := tmul swap_source swap_dest in
    let! _ := assume (l <=? r) in
    check_curve_value_from_swap (Offset o) source swap_source swap_dest AtoB).

(** 484-510 *)
Definition offset_value_swap_b_to_a (source swap_source swap_dest o : Z) : verdict :=
  verdict_of (
    let! s := tadd swap_source o in
    let! _ := assume (s * swap_dest <=? u128_max) in
    check_curve_value_from_swap (Offset o) source swap_source swap_dest BtoA).

(** 512-539 *)
Definition offset_value_deposit (pool_tokens pool_supply a b o : Z) : verdict :=
  verdict_of (
    let! _ := assume_shares o pool_tokens pool_supply a b in
    check_pool_value_from_deposit (Offset o) pool_tokens pool_supply a b).

(** 541-580 *)
Definition offset_value_withdraw (pool_tokens pool_supply a b o : Z) : verdict :=
  verdict_of (
    let! _ := assume_shares o pool_tokens pool_supply a b in
    let! (_, wb) := unwrap (pool_tokens_to_trading_tokens (Offset o) pool_tokens pool_supply a b Floor) in
    let! _ := assume (wb <=? b) in
    check_pool_value_from_withdraw (Offset o) pool_tokens pool_supply a b).

(** ** linear_price.rs *)

(** 1978-1983, 2018-2023 *)
Definition test_curve_buy : linear_curve := mk_linear 37 1400000000000000000 7 2.
Definition test_curve_sell : linear_curve := mk_linear 1 1000000000000 0 1.

(** 1967-2007 *)
Definition linear_value_swap_a_to_b (source swap_source : Z) : verdict :=
  verdict_of (
    let! (_, dst) := unwrap (swap_a_to_b test_curve_buy source swap_source u64_max) in
    if 0 <? dst then
      check_curve_value_from_swap (LinearPrice test_curve_buy) source swap_source u64_max AtoB
    else Go tt).

(** 2009-2045 *)
Definition linear_value_swap_b_to_a (source swap_dest : Z) : verdict :=
  verdict_of (
    let! (_, dst) := unwrap (swap_b_to_a test_curve_sell source u64_max swap_dest) in
    if 0 <? dst then
      check_curve_value_from_swap (LinearPrice test_curve_sell) source u64_max swap_dest BtoA
    else Go tt).
