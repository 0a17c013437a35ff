(** sim/simulation.py and sim/src/lib.rs: the Python reference for the stable
    curve, as the tests of stable.rs use it (two coins, target prices of 10^18, no
    fee).  Python integers are unbounded, [//] is floor division, and a division
    by zero raises an exception. *)
From Verif Require Import Ints SwapCurve RandomTests.

Definition pydiv (x y : Z) : option Z := if y =? 0 then None else Some (x / y).
Notation "'let*' x := m 'in' k" := (match m with Some x => k | None => None end)
  (at level 200, x pattern, m at level 100, k at level 200, right associativity).

(** lib.rs 11, 37; simulation.py 22 *)
Definition DEFAULT_TARGET_PRICE : Z := 1000000000000000000.

(** 29-30: the balances in common units *)
Definition sim_xp (x : Z) : Z := x * DEFAULT_TARGET_PRICE / 10 ^ 18.

(** 51-55: one round for the invariant; [ann] is [A * n] *)
Definition sim_d_step (ann x0 x1 d : Z) : option Z :=
  let* p0 := pydiv (d * d) (2 * x0 + 1) in
  let* p := pydiv (p0 * d) (2 * x1 + 1) in
  pydiv ((ann * (x0 + x1) + p * 2) * d) ((ann - 1) * d + (2 + 1) * p).

(** 50-59: [while abs(D - Dprev) > 1], left after 1001 rounds *)
Fixpoint sim_d_loop (n : nat) (ann x0 x1 d dprev : Z) : option Z :=
  match n with
  | O => Some d
  | S n' =>
      if 1 <? Z.abs (d - dprev) then
        let* d' := sim_d_step ann x0 x1 d in
        sim_d_loop n' ann x0 x1 d' d
      else Some d
  end.
Definition ROUNDS : nat := 1001.

(** 32-61 *)
Definition sim_d (amp x0 x1 : Z) : option Z :=
  let x0 := sim_xp x0 in
  let x1 := sim_xp x1 in
  sim_d_loop ROUNDS (amp * 2) x0 x1 (x0 + x1) 0.

(** 88-94 *)
Fixpoint sim_y_loop (n : nat) (b c y yprev : Z) : option Z :=
  match n with
  | O => Some y
  | S n' =>
      if 1 <? Z.abs (y - yprev) then
        let* y' := pydiv (y * y + c) (2 * y + b) in
        sim_y_loop n' b c y' y
      else Some y
  end.

(** 63-96: the balance of coin 1 if that of coin 0 were [x] *)
Definition sim_y (amp x0 x1 x : Z) : option Z :=
  let* d := sim_d amp x0 x1 in
  let ann := amp * 2 in
  let* c0 := pydiv (d * d) (x * 2) in
  let* c := pydiv (c0 * d) (2 * ann) in
  let* da := pydiv d ann in
  let b := x + da - d in
  sim_y_loop ROUNDS b c d 0.

(** 137-150 with a fee of 0 *)
Definition sim_exchange (amp x0 x1 dx : Z) : option Z :=
  let x := sim_xp x0 + dx in
  let* y := sim_y amp x0 x1 x in
  let dy := sim_xp x1 - y in
  Some dy.

(** stable.rs 398-444: the trade of the program against that of the simulation.
    lib.rs extracts the result as a u128, which fails on negative numbers. *)
Definition simulation_test (swap_source swap_dest source amp : Z) : verdict :=
  verdict_of (
    let! _ := assume (source <? swap_source) in
    let! (_, dst) := unwrap (swap_without_fees (Stable amp) source swap_source swap_dest AtoB) in
    match sim_exchange amp swap_source swap_dest source with
    | Some sim =>
        if (sim <? 0) || (u128_max <? sim) then Stop Broke
        else assert (Z.abs (sim - dst) <=? Z.max 1 (sim / 1000000000))
    | None => Stop Broke
    end).
