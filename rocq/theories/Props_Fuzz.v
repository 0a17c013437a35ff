(** C119: the program's fuzz test. *)
From Verif Require Import Ints Fees SwapCurve Codec Token Processor Api Spec LedgerSpec TotalSpec LedgerExamples Fuzz FuzzSpec FuzzMain FuzzWorth FuzzFunds FuzzMeans.

(** C119.  Every list of up to 100000 instructions passes the test. *)
Theorem C119_passes : forall l, Forall fuzz_ok l -> Z.of_nat (length l) <= 100000 -> fuzz_test l = Passed.
Proof. exact run_passes. Qed.
Print Assumptions C119_passes.

(** What passing means: a pool token is worth at least what it was, the totals of both tokens are
    what they were before and after, and a withdrawal of all pool tokens succeeds. *)
Theorem C119_meaning : forall l, fuzz_test l = Passed -> exists w w' v,
  fuzz_run fuzz_start l = Some w /\
  token_value w (1000000000 + total w 403 (ids 3000)) = Val v /\ 1500000050000000000000 <= v /\
  total w 201 (301 :: 4001 :: ids 1000) = 356000000000 /\ total w 202 (302 :: 4002 :: ids 2000) = 1068000000000 /\
  (if 0 <? balance (collect w) 303
   then exec ex_env [900] (collect w)
     (WithdrawAll [300; auth 300; 900; 403; 303; 301; 302; 4001; 4002; 303; TOKEN_PROGRAM_ID] (balance (collect w) 303) 0 0) = Ok w'
   else w' = collect w) /\
  total w' 201 (301 :: 4001 :: ids 1000) = 356000000000 /\ total w' 202 (302 :: 4002 :: ids 2000) = 1068000000000.
Proof. exact passed_means. Qed.
Print Assumptions C119_meaning.

(** What its check of the value of a pool token comes to: at the starting value of a pool token, the
    tokens outside the fee account are worth no more than the vaults.  All of them are worth at most
    four times the vaults. *)
Theorem C119_backed : forall l, Forall fuzz_ok l -> Z.of_nat (length l) <= 100000 ->
  exists w, fuzz_run fuzz_start l = Some w /\
    3000000100 * (supply w 403 - balance w 303) <= pool_worth w /\ 3000000100 * supply w 403 <= 4 * pool_worth w.
Proof. exact run_backed. Qed.
Print Assumptions C119_backed.

(** An error of the token program, which the test puts up with when it is for lack of funds, is for
    lack of funds: a user's account, or the vault of a single withdrawal, holds less than is taken. *)
Theorem C119_funds : forall l i, Forall fuzz_ok (i :: l) -> Z.of_nat (length l) <= 100000 ->
  exists w, fuzz_run fuzz_start l = Some w /\ (exec ex_env [900] w (fuzz_call w i) = Err EToken -> lacks_funds w i).
Proof. exact run_funds. Qed.
Print Assumptions C119_funds.

(** C119 for longer runs, in part.  Every run of up to 10^11 instructions meets only errors the test puts up with,
    keeps the totals of tokens A and B, and ends with all pool tokens redeemed at once.  What stands
    behind the tokens of the fee and the pool token accounts falls by at most the price of one
    token B per instruction.  Not covered: the test's own check that a pool token does not lose value. *)
Theorem C119_rest_partial : forall l, Forall fuzz_ok l -> Z.of_nat (length l) <= 100000000000 ->
  exists w w', fuzz_run fuzz_start l = Some w /\ totals_kept w = true /\ cash_in (collect w) = Some w' /\ totals_kept w' = true /\
    supply w' 403 = 0 /\
    3000000100000000000 * supply w 403 <=
      pool_worth w * (balance w 304 + balance w 303) + fuzz_price * Z.of_nat (length l) * supply w 403 /\
    3000000100000000000 - fuzz_price * Z.of_nat (length l) <= pool_worth w.
Proof. exact run_rest. Qed.
Print Assumptions C119_rest_partial.

(** C119 for longer runs, in part.  If a run fails, it is the check of the value of a pool token. *)
Theorem C119_verdict_partial : forall l, Forall fuzz_ok l -> Z.of_nat (length l) <= 100000000000 ->
  fuzz_test l = Passed \/ fuzz_test l = ValueFell.
Proof. exact run_verdict. Qed.
Print Assumptions C119_verdict_partial.

(** A run with every kind of instruction, one of which fails, and what is in the vaults, the fee
    account, the pool token account and three user accounts before all is redeemed. *)
Example C119_case :
  let l := [ FDepositSingle 0 BtoA 0 3000000000 2; FSwap 1 2 BtoA 700 0; FSwap 3 4 AtoB 500000000 0; FSwap 3 4 AtoB 500000000 60;
    FDepositAll 5 6 0 7 1000000000000 1000000000000; FWithdrawAll 7 8 0 1000 0 0;
    FWithdrawSingle 0 BtoA 0 2990000000 100000000000 ] in
  Forall fuzz_ok l /\ fuzz_test l = Passed /\
  option_map (fun w => map (balance w) [301; 302; 303; 304; 1003; 2000; 3000]) (fuzz_run fuzz_start l) =
    Some [0; 300009851100; 29865; 1000000000; 508500000; 2990000000; 2556].
Proof.
  cbv zeta. split; [| vm_compute; split; reflexivity].
  repeat (apply Forall_cons; [vm_compute; intuition congruence |]). apply Forall_nil.
Qed.

(** A deposit of more than the account holds is such an error; two lower deposits before it are not. *)
Example C119_funds_case :
  let l := [ FDepositSingle 9 BtoA 1 600000000 0; FDepositSingle 9 BtoA 1 400000000 0 ] in
  let i := FDepositSingle 9 BtoA 1 2000000001 0 in
  option_map (fun w => (balance w (acc_on BtoA 9), balance w (acc_p 1), exec ex_env [900] w (fuzz_call w i))) (fuzz_run fuzz_start l) =
    Some (2000000000, 3329162, Err EToken) /\
  option_map (fun w => balance w (acc_on BtoA 9)) (fuzz_run fuzz_start [FDepositSingle 9 BtoA 1 600000000 0]) = Some 2400000000.
Proof. vm_compute. split; reflexivity. Qed.

(** A user never asks for a single pool token and never leaves one behind; the fees of the pool. *)
Example C119_amounts :
  map (fun n => fuzz_call fuzz_start (FDepositAll 1 2 3 n 0 0)) [0; 1; 2] =
    map (fun n => DepositAll [300; auth 300; 900; 1001; 2002; 301; 302; 403; 3003; TOKEN_PROGRAM_ID] n 0 0) [0; 2; 2] /\
  map (leave_none 10) [8; 9; 10; 11] = [8; 10; 10; 11] /\ map at_least_two [0; 1; 2; 3] = [2; 2; 2; 3] /\
  exists s, pool_at fuzz_start 300 s /\ st_fees s = mk_fees 25 10000 5 10000 30 10000 1 5.
Proof. repeat (split; [reflexivity |]). eexists. split; [split; vm_compute; reflexivity | reflexivity]. Qed.
