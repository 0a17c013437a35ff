(** fuzz/src/instructions.rs: the program's fuzz test, which runs any list of instructions against
    one pool and checks the outcome.  Only its constant-price pool is covered, the one this program
    can still create. *)
From Verif Require Import Ints SplMath Fees ConstantPrice SwapCurve Codec Token Processor Api History LedgerSpec TotalSpec
  LedgerExamples.

(** 87-104 and 463-465 *)
Definition fuzz_fees : fees := mk_fees 25 10000 5 10000 30 10000 1 5.
Definition fuzz_price : Z := 10000000.

(** native_token_swap.rs 44-145 and instructions.rs 74-78, 113-176: the pool 300 with vaults 301 and
    302, pool mint 403, fee account 303 and pool token account 304; the mints 201 and 202; user
    accounts number 0 to 255 for token A (from 1000), token B (from 2000) and pool tokens (from
    3000); 4001 and 4002 are used at the end.  Everything belongs to user 900.  Here all the
    accounts exist from the start; in the test, those that occur in the list. *)
Definition acc_a (id : Z) : Z := 1000 + id.
Definition acc_b (id : Z) : Z := 2000 + id.
Definition acc_p (id : Z) : Z := 3000 + id.
Definition fuzz_genesis : world := fun k =>
  if (1000 <=? k) && (k <? 1256) then tok 201 900 1000000000
  else if (2000 <=? k) && (k <? 2256) then tok 202 900 3000000000
  else if (3000 <=? k) && (k <? 3256) then tok 403 900 0
  else of_list
    [ (300, zeroed); (301, tok 201 (auth 300) 100000000000); (302, tok 202 (auth 300) 300000000000);
      (403, a_mint (auth 300) 0); (303, tok 403 900 0); (304, tok 403 900 0);
      (201, a_mint 900 356000000000); (202, a_mint 900 1068000000000);
      (4001, tok 201 900 0); (4002, tok 202 900 0) ] k.
Definition fuzz_init : instr :=
  InitConstantPrice [300; auth 300; 301; 302; 403; 303; 304; TOKEN_PROGRAM_ID] fuzz_fees fuzz_price.
Definition fuzz_start : world := run1 [300] fuzz_genesis fuzz_init.

(** 36-68 *)
Inductive fuzz_instr : Type :=
| FSwap (token_a_id token_b_id : Z) (d : trade_direction) (amount_in minimum_amount_out : Z)
| FDepositAll (token_a_id token_b_id pool_token_id pool_token_amount maximum_a maximum_b : Z)
| FWithdrawAll (token_a_id token_b_id pool_token_id pool_token_amount minimum_a minimum_b : Z)
| FDepositSingle (token_id : Z) (d : trade_direction) (pool_token_id source_amount minimum_pool_tokens : Z)
| FWithdrawSingle (token_id : Z) (d : trade_direction) (pool_token_id destination_amount maximum_pool_tokens : Z).

(** native_token_swap.rs 362-367, 439-444, 487-492: what is avoided so as not to end up with a
    single pool token *)
Definition avoid_one (n : Z) : Z := if n =? 1 then 2 else n.
Definition leave_none (have n : Z) : Z := if sat_sub have n =? 1 then have else n.
Definition at_least_two (n : Z) : Z := if n <? 2 then 2 else n.

(** native_token_swap.rs 147-546.  The test approves each amount to a delegate of its own; here the
    user signs. *)
Definition acc_on (d : trade_direction) (id : Z) : Z := match d with AtoB => acc_a id | BtoA => acc_b id end.
Definition fuzz_call (w : world) (i : fuzz_instr) : instr :=
  match i with
  | FSwap a b AtoB n m =>
      Swap [300; auth 300; 900; acc_a a; 301; 302; acc_b b; 403; 303; TOKEN_PROGRAM_ID; 304] n m
  | FSwap a b BtoA n m =>
      Swap [300; auth 300; 900; acc_b b; 302; 301; acc_a a; 403; 303; TOKEN_PROGRAM_ID; 304] n m
  | FDepositAll a b p n ma mb =>
      DepositAll [300; auth 300; 900; acc_a a; acc_b b; 301; 302; 403; acc_p p; TOKEN_PROGRAM_ID] (avoid_one n) ma mb
  | FWithdrawAll a b p n ma mb =>
      WithdrawAll [300; auth 300; 900; 403; acc_p p; 301; 302; acc_a a; acc_b b; 303; TOKEN_PROGRAM_ID]
        (leave_none (balance w (acc_p p)) n) ma mb
  | FDepositSingle t d p n m =>
      DepositSingle [300; auth 300; 900; acc_on d t; 301; 302; 403; acc_p p; TOKEN_PROGRAM_ID] n (at_least_two m)
  | FWithdrawSingle t d p n m =>
      WithdrawSingle [300; auth 300; 900; 403; acc_p p; 301; 302; acc_on d t; 303; TOKEN_PROGRAM_ID]
        n (leave_none (balance w (acc_p p)) m)
  end.

(** 377-391: the errors the test puts up with *)
Definition tolerated (e : error) : bool :=
  match e with
  | ESwap CalculationFailure | ESwap ConversionFailure | ESwap FeeCalculationFailure | ESwap ExceededSlippage
  | ESwap ZeroTradingTokens | ESwap UnsupportedCurveOperation | EToken => true
  | _ => false
  end.

(** 285-392 and 193-201; native_processor.rs 55-95: a failed instruction changes nothing *)
Definition fuzz_step (w : world) (i : fuzz_instr) : option world :=
  match exec ex_env [900] w (fuzz_call w i) with
  | Ok w' => Some w'
  | Err e => if tolerated e then Some w else None
  end.
Fixpoint fuzz_run (w : world) (l : list fuzz_instr) : option world :=
  match l with
  | [] => Some w
  | i :: l' => match fuzz_step w i with Some w' => fuzz_run w' l' | None => None end
  end.

(** The accounts added up by the test. *)
Definition ids (first : Z) : list Z := map (fun n => first + Z.of_nat n) (seq 0 256).

(** 178-185 and 203-227: the value of one pool token, not counting what is in the fee account at
    the end, is not lower than at the start *)
Definition fuzz_worth (w : world) : outcome Z := cprice_normalized_value fuzz_price (balance w 301) (balance w 302).
Definition token_value (w : world) (pool_tokens : Z) : outcome Z :=
  let? v := fuzz_worth w in
  let? n := spl_new pool_tokens in
  spl_div v n.
Definition counted (w : world) : Z :=
  balance fuzz_start 304 + balance fuzz_start 303 + total w 403 (ids 3000).
Definition value_kept (w : world) : bool :=
  match token_value fuzz_start (counted fuzz_start), token_value w (counted w) with
  | Val v, Val v' => v <=? v'
  | _, _ => false
  end.

(** 187-191, 229-241 and 269-282: the totals of tokens A and B are what they were *)
Definition totals_kept (w : world) : bool :=
  (total w 201 (301 :: 4001 :: ids 1000) =? 100000000000 + 256 * 1000000000) &&
  (total w 202 (302 :: 4002 :: ids 2000) =? 300000000000 + 256 * 3000000000).

(** native_token.rs 46-59: tokens moved by writing both balances *)
Definition move (w : world) (source dest amount : Z) : world :=
  match a_data (w source), a_data (w dest) with
  | DToken t, DToken u =>
      let w1 := set_token w source (with_amount t (t_amount t - amount)) in
      set_token w1 dest (with_amount u (t_amount u + amount))
  | _, _ => w
  end.

(** 243-256 *)
Definition collect (w : world) : world :=
  fold_left (fun w k => let n := balance w k in if 0 <? n then move w k 303 n else w) (ids 3000 ++ [304]) w.

(** 258-267 and native_token_swap.rs 548-571 *)
Definition cash_in (w : world) : option world :=
  let n := balance w 303 in
  if 0 <? n then
    match exec ex_env [900] w
        (WithdrawAll [300; auth 300; 900; 403; 303; 301; 302; 4001; 4002; 303; TOKEN_PROGRAM_ID] (leave_none n n) 0 0) with
    | Ok w' => Some w'
    | Err _ => None
    end
  else Some w.

(** 86-283: how a run ends *)
Inductive verdict : Type := Passed | UnexpectedError | ValueFell | TotalsChanged | CannotCashIn.
Definition fuzz_test (l : list fuzz_instr) : verdict :=
  match fuzz_run fuzz_start l with
  | None => UnexpectedError
  | Some w =>
      if negb (value_kept w) then ValueFell
      else if negb (totals_kept w) then TotalsChanged
      else match cash_in (collect w) with
           | None => CannotCashIn
           | Some w' => if totals_kept w' then Passed else TotalsChanged
           end
  end.
