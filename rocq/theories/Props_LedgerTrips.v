(** C118: buying and selling back, and selling in parts, on the ledger. *)
From Verif Require Import Ints DfsPrecise Fees LinearCurve SwapCurve Codec Token Processor Api History
  Spec LedgerSpec LinearProps LinearRound LedgerExamples HistoryExamples CoverWitness LedgerTrips.

(** C118, that nobody gains by buying from a linear pool and selling back at once: false.  In a ledger
    reached through instructions alone the trader ends with the tokens they had and 2 units more, which
    the pool has lost. *)
Theorem C118_trip_refuted : exists e w w1 w2 signer acc1 acc2 n1 n2 s c money tokens,
  env_ok e /\ reachable e w /\ pool_at w (nth 0 acc1 0) s /\ st_curve s = LinearPrice c /\ moderate c /\
  nth 0 acc2 0 = nth 0 acc1 0 /\ step e w (Instruction [signer] (Swap acc1 n1 0)) w1 /\ step e w1 (Instruction [signer] (Swap acc2 n2 0)) w2 /\
  nth 4 acc1 0 = st_token_a s /\ nth 4 acc2 0 <> st_token_a s /\
  n2 = balance w (st_token_b s) - balance w1 (st_token_b s) /\
  balance w2 tokens = balance w tokens /\ balance w2 money = balance w money + 2 /\
  balance w2 (st_token_a s) = balance w (st_token_a s) - 2.
Proof. exact lt_gain. Qed.
Print Assumptions C118_trip_refuted.

(** C118, that at most 35 units can be gained on any linear pool: false.  Somebody has sent 36 units to a
    pool with a single token left; a trader buys that token and sells it back for 36 units more. *)
Theorem C118_dearest_refuted : exists e w w1 w2 signer acc1 acc2 n1 n2 s c money tokens,
  env_ok e /\ reachable e w /\ pool_at w (nth 0 acc1 0) s /\ st_curve s = LinearPrice c /\
  nth 0 acc2 0 = nth 0 acc1 0 /\ step e w (Instruction [signer] (Swap acc1 n1 0)) w1 /\ step e w1 (Instruction [signer] (Swap acc2 n2 0)) w2 /\
  nth 4 acc1 0 = st_token_a s /\ nth 4 acc2 0 <> st_token_a s /\
  n2 = balance w (st_token_b s) - balance w1 (st_token_b s) /\
  balance w2 tokens = balance w tokens /\ balance w2 money = balance w money + 36 /\
  balance w2 (st_token_a s) = balance w (st_token_a s) - 36.
Proof. exact ledger_dearest. Qed.
Print Assumptions C118_dearest_refuted.

(** C118, how much can be gained: at most 39 units on any linear pool, at most 2 (the first witness) for
    starting prices up to 10^17 and slopes up to 10^14, and nothing if the slope is at least 10^-17 as
    well.  (Full statement: nothing.) *)
Theorem C118_trip_partial : forall e w w1 w2 sg1 sg2 acc1 acc2 n1 m1 n2 m2 s c,
  env_ok e -> reachable e w -> pool_at w (nth 0 acc1 0) s -> st_curve s = LinearPrice c ->
  step e w (Instruction sg1 (Swap acc1 n1 m1)) w1 -> step e w1 (Instruction sg2 (Swap acc2 n2 m2)) w2 ->
  nth 0 acc2 0 = nth 0 acc1 0 ->
  nth 4 acc1 0 = st_token_a s -> nth 4 acc2 0 <> st_token_a s ->
  n2 = balance w (st_token_b s) - balance w1 (st_token_b s) ->
  balance w (st_token_a s) <= balance w2 (st_token_a s) + 39 /\
  (moderate c -> balance w (st_token_a s) <= balance w2 (st_token_a s) + 2) /\
  (moderate c -> 10 * slope_den c <= slope_num c * ONE -> balance w (st_token_a s) <= balance w2 (st_token_a s)).
Proof. exact ledger_trip. Qed.
Print Assumptions C118_trip_partial.

(** C118 for sales: two sales in a row take at most 2 units more out of the vault than one sale of the
    same tokens would have. *)
Theorem C118_split_partial : forall e w w1 w2 sg1 sg2 acc1 acc2 n1 m1 n2 m2 s c,
  env_ok e -> reachable e w -> pool_at w (nth 0 acc1 0) s -> st_curve s = LinearPrice c ->
  step e w (Instruction sg1 (Swap acc1 n1 m1)) w1 -> step e w1 (Instruction sg2 (Swap acc2 n2 m2)) w2 ->
  nth 0 acc2 0 = nth 0 acc1 0 ->
  forall sg acc m w', nth 0 acc 0 = nth 0 acc1 0 ->
  nth 4 acc1 0 <> st_token_a s -> nth 4 acc2 0 <> st_token_a s -> nth 4 acc 0 <> st_token_a s ->
  step e w (Instruction sg (Swap acc (n1 + n2) m)) w' ->
  balance w' (st_token_a s) <= balance w2 (st_token_a s) + 2.
Proof. exact ledger_split. Qed.
Print Assumptions C118_split_partial.

(** The two witnesses, and a pool with slope 1/2 and starting price 50: 1000 units buy 18 tokens, which sell
    for 949; sold in parts of 8 and 10 they pay 50 units less. *)
Example C118_case :
  let buy := run1 [901] ex_w2 (cw_buy 1000) in
  bals (Ok lt_w2) [101; 102; 111; 112] = [94104; 9621268; 1905896; 413736807987] /\
  bals (Ok lt_w3) [101; 102; 111; 112] = [94107; 0; 1905893; 413746429255] /\
  bals (Ok lt_w4) [101; 102; 111; 112] = [94102; 9621268; 1905898; 413736807987] /\
  bals (Ok ld_w2) [101; 102; 111; 112] = [36; 1; 18446736166973873004; 0] /\
  bals (Ok ld_w3) [101; 102; 111; 112] = [18446736166973873040; 0; 0; 1] /\
  bals (Ok ld_w4) [101; 102; 111; 112] = [0; 1; 18446736166973873040; 0] /\
  bals (Ok buy) [101; 102] = [1000; 4982] /\
  bals (Ok (run1 [901] buy (cw_sell 18))) [101; 102] = [51; 5000] /\
  bals (Ok (run1 [901] (run1 [901] buy (cw_sell 8)) (cw_sell 10))) [101; 102] = [101; 5000].
Proof. vm_compute. repeat split; reflexivity. Qed.
