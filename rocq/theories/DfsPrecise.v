(** dfs_precise_number.rs: the 256-bit fixed-point number with 18 decimals.  A
    [DFSPreciseNumber] is represented by its raw [value : U256]. *)
From Verif Require Import Ints SplMath.

(** 18 *)
Definition ONE : Z := 1000000000000000000.
(** 20 *)
Definition SQRT_ONE : Z := 1000000000.
(** 43-45 *)
Definition HALF : Z := 500000000000000000.

(** 52-55 *)
Definition dfs_new (v : Z) : outcome Z := mul_in u256_max v ONE.

(** 58-69: rounds half up; [None] (not a panic) beyond [u128]. *)
Definition dfs_to_imprecise (x : Z) : outcome Z :=
  let? c := add_in u256_max x HALF in
  let? q := cdiv c ONE in
  if q <=? u128_max then Val q else Non.

(** 78-95 *)
Definition dfs_less_than (x y : Z) : bool := x <? y.
Definition dfs_greater_than_or_equal (x y : Z) : bool := y <=? x.

(** 98-101 *)
Definition dfs_floor (x : Z) : outcome Z :=
  let? q := cdiv x ONE in
  mul_in u256_max q ONE.

(** 104-111 *)
Definition dfs_ceiling (x : Z) : outcome Z :=
  let? o := csub ONE 1 in
  let? c := add_in u256_max x o in
  let? q := cdiv c ONE in
  mul_in u256_max q ONE.

(** 114-134 *)
Definition dfs_div (x y : Z) : outcome Z :=
  if y =? 0 then Non
  else
    match mul_in u256_max x ONE with
    | Val v => let? c := add_in u256_max v HALF in cdiv c y
    | Non =>
        let? c := add_in u256_max x HALF in
        let? q := cdiv c y in
        mul_in u256_max q ONE
    | Panic => Panic
    end.

(** 137-154 *)
Definition dfs_mul (x y : Z) : outcome Z :=
  match mul_in u256_max x y with
  | Val v => let? c := add_in u256_max v HALF in cdiv c ONE
  | Non =>
      if y <=? x
      then let? q := cdiv x ONE in mul_in u256_max q y
      else let? q := cdiv y ONE in mul_in u256_max q x
  | Panic => Panic
  end.

(** 157-160 *)
Definition dfs_add (x y : Z) : outcome Z := add_in u256_max x y.
(** 163-166 *)
Definition dfs_sub (x y : Z) : outcome Z := csub x y.
(** 169-177: difference and whether it is negative. *)
Definition dfs_unsigned_sub (x y : Z) : Z * bool :=
  if y <=? x then (x - y, false) else (y - x, true).

(** 72-75 *)
Definition dfs_almost_eq (x y precision : Z) : bool :=
  fst (dfs_unsigned_sub x y) <? precision.

(** 179-190 *)
Definition dfs_to_spl (x : Z) : outcome Z :=
  let? v := dfs_to_imprecise x in
  let? spl_number := spl_new v in
  let? d128 := as_u128 (x mod ONE) in
  let? scaled := spl_new d128 in
  let? one := spl_new ONE in
  let? decimals := spl_div scaled one in
  spl_add spl_number decimals.

(** A [while] loop: [step] returns [inr] while the loop goes on.  [run_loop n]
    performs at most 2^n iterations and then gives up with [inr]. *)
Fixpoint run_loop {S R} (n : nat) (step : S -> R + S) (s : S) : R + S :=
  match n with
  | O => step s
  | Datatypes.S n' =>
      match run_loop n' step s with
      | inl r => inl r
      | inr s' => run_loop n' step s'
      end
  end.

(** 200-203: body of [while z < y], state (y, z); a [None] inside the body
    leaves the function. *)
Definition babylonian_step (x : Z) (yz : Z * Z) : outcome Z + Z * Z :=
  let (y, z) := yz in
  if z <? y then
    match
      (let? q := cdiv x z in
       let? s := add_in u64_max q z in
       cdiv s 2)
    with
    | Val z' => inr (z, z')
    | Non => inl Non
    | Panic => inl Panic
    end
  else inl (Val y).

(** 194-214: Babylonian square root of a [u64].  A run of more than 2^64
    iterations (which never happens, [babylonian_correct]) would be [Panic]. *)
Definition sqrt_babylonian (x : Z) (round_up : bool) : outcome Z :=
  let? z :=
    match add_in u64_max x 1 with
    | Val v => cdiv v 2
    | Non => cdiv x 2
    | Panic => Panic
    end in
  match run_loop 64 (babylonian_step x) (x, z) with
  | inl r =>
      let? y := r in
      let? yy := mul_in u64_max y y in
      if round_up && (yy <? x) then add_in u64_max y 1 else Val y
  | inr _ => Panic
  end.

(** 223-320.  [Z.shiftl]/[Z.shiftr] with the final 256-bit truncation of the
    left shift written out. *)
Definition shl256 (x n : Z) : Z := (x * 2 ^ n) mod 2 ^ 256.
Definition shr256 (x n : Z) : Z := x / 2 ^ n.

Definition dfs_sqrt_u64 (x : Z) (round_up : bool) : outcome Z :=
  let value_bits := bits x in
  let max_bits := 64 in
  if value_bits <=? max_bits then
    let pad_bits := (max_bits - value_bits) / 2 * 2 in
    let? correction := dfs_new (2 ^ (pad_bits / 2)) in
    let padded_value := shl256 x pad_bits in
    let? padded := as_u64 padded_value in
    let? sqrt_padded := sqrt_babylonian padded round_up in
    let? so := dfs_new SQRT_ONE in
    let? numerator := dfs_mul sqrt_padded so in
    let? unrounded := dfs_div numerator correction in
    if round_up then
      let? back := dfs_mul unrounded correction in
      if dfs_less_than back numerator then dfs_add unrounded 1 else Val unrounded
    else Val unrounded
  else
    let pad_bits := (value_bits - max_bits + 1) / 2 * 2 in
    let? correction := dfs_new (2 ^ (pad_bits / 2)) in
    let unrounded_padded := shr256 x pad_bits in
    let? padded_value :=
      (if round_up && (shl256 unrounded_padded pad_bits <? x)
       then add_in u256_max unrounded_padded 1
       else Val unrounded_padded) in
    let? padded := as_u64 padded_value in
    let? sqrt_padded := sqrt_babylonian padded round_up in
    let? so := dfs_new SQRT_ONE in
    let? scaled := dfs_mul sqrt_padded so in
    dfs_mul scaled correction.
