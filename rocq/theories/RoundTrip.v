(** curve/linear_price.rs 1801-1955: the test [minimum_token_exchange_rounding], which buys all
    tokens of a linear curve in small steps and sells until the collateral is gone.  The test invites
    its reader to change the curve, the supply and the step; here they are parameters. *)
From Verif Require Import Ints DfsPrecise LinearCurve SwapCurve RandomTests.

(** A loop that has not ended within the given number of rounds has no result. *)
Definition rbind {A B} (m : option (test A)) (k : A -> option (test B)) : option (test B) :=
  match m with
  | None => None
  | Some (Go a) => k a
  | Some (Stop v) => Some (Stop v)
  end.
Notation "'run!' x := m 'in' k" := (rbind m (fun x => k))
  (at level 200, x pattern, m at level 100, k at level 200, right associativity).

(** [m.unwrap().to_imprecise().unwrap()] *)
Definition whole (m : outcome Z) : test Z := let! x := unwrap m in unwrap (dfs_to_imprecise x).

(** 1847-1850 and 1921-1924: [match n.checked_sub(10 * step) { Some(val) => val, None => n }] *)
Definition first_offer (n step : Z) : test Z :=
  let! steps := tmul 10 step in
  Go (if steps <=? n then n - steps else n).

(** 1851-1883 and 1925-1953: offers are raised by [step] until a trade goes through *)
Fixpoint raise_offer (rounds : nat) (trade : Z -> outcome (Z * Z)) (step offer : Z) : option (test (Z * Z)) :=
  match rounds with
  | O => None
  | S rounds' =>
      match trade offer with
      | Val r => Some (Go r)
      | Panic => Some (Stop Broke)
      | Non => run! offer' := Some (tadd offer step) in raise_offer rounds' trade step offer'
      end
  end.

(** 1829-1850 *)
Definition buy_offer (c : linear_curve) (step sold : Z) : test Z :=
  let! b := unwrap (dfs_new sold) in
  let! current_a := whole (amt_a_locked_at_b_value c b) in
  let! b' := unwrap (dfs_new (sold + 1)) in
  let! next_a := whole (amt_a_locked_at_b_value c b') in
  let! n := tsub next_a current_a in
  first_offer n step.

(** 1828-1884; the collateral taken in *)
Fixpoint buy_all (rounds : nat) (c : linear_curve) (supply step a b : Z) : option (test Z) :=
  match rounds with
  | O => None
  | S rounds' =>
      if 0 <? b then
        run! sold := Some (tsub supply b) in
        run! offer := Some (buy_offer c step sold) in
        run! (src, dst) := raise_offer rounds' (fun n => linear_swap c n a b AtoB) step offer in
        run! a' := Some (tadd a src) in
        run! b' := Some (tsub b dst) in
        buy_all rounds' c supply step a' b'
      else Some (Go a)
  end.

(** 1892-1924 *)
Definition sell_offer (c : linear_curve) (step a : Z) : test Z :=
  let! x := unwrap (dfs_new a) in
  let! current_b := whole (b_value_with_amt_a_locked c x false) in
  let! x' := unwrap (dfs_new (sat_sub a step)) in
  let! next_b := whole (b_value_with_amt_a_locked c x' true) in
  let! n := tsub current_b next_b in
  first_offer n step.

(** 1891-1954; the tokens in the pool *)
Fixpoint sell_all (rounds : nat) (c : linear_curve) (step a b : Z) : option (test Z) :=
  match rounds with
  | O => None
  | S rounds' =>
      if 0 <? a then
        run! offer := Some (sell_offer c step a) in
        run! (src, dst) := raise_offer rounds' (fun n => linear_swap c n b a BtoA) step offer in
        run! b' := Some (tadd b src) in
        run! a' := Some (tsub a dst) in
        sell_all rounds' c step a' b'
      else Some (Go b)
  end.

(** 1821-1960 *)
Definition round_trip (rounds : nat) (c : linear_curve) (supply step : Z) : option verdict :=
  option_map verdict_of
    (run! a := buy_all rounds c supply step 0 supply in
     run! _ := Some (assert (0 <? a)) in
     run! b := sell_all rounds c step a 0 in
     Some (assert (supply <=? b))).
