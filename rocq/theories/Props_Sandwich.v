(** Trades around somebody else's trade with a linear pool: C109. *)
From Verif Require Import Ints Tactics DfsPrecise Fees LinearCurve SwapCurve Codec Token Processor Api History
  Spec LedgerSpec TraceSpec LinearProps LinearRound LinearHistory LinearBacked LedgerExamples HistoryExamples CoverWitness
  DriftSpec SandwichFacts.

(** C109, that nobody gains by trading before and after somebody else's purchase: false
    on any curve, here slope 1/2 and starting price 50.  The trader ends with the tokens
    they had and 475 more of collateral; the buyer paid 1000. *)
Theorem C109_gain_refuted : exists e w w1 w2 w3 k s c trader buyer money tokens before buy after,
  env_ok e /\ reachable e w /\ pool_at w k s /\ st_curve s = LinearPrice c /\ decimal c /\ trader <> buyer /\
  step e w (Instruction [trader] before) w1 /\ step e w1 (Instruction [buyer] buy) w2 /\ step e w2 (Instruction [trader] after) w3 /\
  swaps_on k (Instruction [trader] before) = true /\ swaps_on k (Instruction [buyer] buy) = true /\
  swaps_on k (Instruction [trader] after) = true /\
  balance w3 tokens = balance w tokens /\ balance w money + 475 <= balance w3 money.
Proof. exact sw_gain. Qed.
Print Assumptions C109_gain_refuted.

(** C109.  The buyer's limit bounds the gain.  Let a buyer offer [n] for at least [m]
    tokens, and let anything happen before and after in which all others together do not
    give tokens to the pool.  What the others take out of the collateral is at most the
    offer, less the price of [m] tokens on the curve from the [x] tokens covered at first
    on, plus what the pool held in excess of those [x] tokens. *)
Theorem C109_buyer_partial : forall e w l1 w1 signers accounts n m w2 l2 w' k s c x,
  env_ok e -> reachable e w -> trace e w l1 w1 ->
  step e w1 (Instruction signers (Swap accounts n m)) w2 -> trace e w2 l2 w' ->
  pool_at w k s -> st_curve s = LinearPrice c -> nth 0 accounts 0 = k ->
  let va := st_token_a s in let vb := st_token_b s in
  0 <= x -> cost_num c x <= cost_den c * balance w va ->
  0 <= drawn k vb w l1 + drawn k vb w2 l2 ->
  nth 4 accounts 0 = va -> decimal c -> Forall (fun p => 0 < balance (snd p) vb) (l1 ++ l2) -> 0 < balance w2 vb ->
  let taken := balance w va + (balance w2 va - balance w1 va) - balance w' va in
  cost_den c * taken <= cost_den c * n - (cost_num c (x + m) - cost_num c x) + (cost_den c * balance w va - cost_num c x).
Proof. exact around_buyer. Qed.
Print Assumptions C109_buyer_partial.

(** The same around a sale of [n] tokens for at least [m]. *)
Theorem C109_seller_partial : forall e w l1 w1 signers accounts n m w2 l2 w' k s c x,
  env_ok e -> reachable e w -> trace e w l1 w1 ->
  step e w1 (Instruction signers (Swap accounts n m)) w2 -> trace e w2 l2 w' ->
  pool_at w k s -> st_curve s = LinearPrice c -> nth 0 accounts 0 = k ->
  let va := st_token_a s in let vb := st_token_b s in
  0 <= x -> cost_num c x <= cost_den c * balance w va ->
  0 <= drawn k vb w l1 + drawn k vb w2 l2 ->
  nth 4 accounts 0 = vb -> decimal c -> Forall (fun p => 0 < balance (snd p) vb) (l1 ++ l2) -> 0 < balance w2 vb ->
  let taken := balance w va + (balance w2 va - balance w1 va) - balance w' va in
  cost_den c * taken <= (cost_num c x - cost_num c (Z.max 0 (x - n))) - cost_den c * m + (cost_den c * balance w va - cost_num c x).
Proof. exact around_seller. Qed.
Print Assumptions C109_seller_partial.

(** On every curve that can be created, with the tolerance of C105: [d] tokens, of which
    the first cost two units, for every swap. *)
Theorem C109_buyer_any_partial : forall e w l1 w1 signers accounts n m w2 l2 w' k s c x,
  env_ok e -> reachable e w -> trace e w l1 w1 ->
  step e w1 (Instruction signers (Swap accounts n m)) w2 -> trace e w2 l2 w' ->
  pool_at w k s -> st_curve s = LinearPrice c -> nth 0 accounts 0 = k ->
  let va := st_token_a s in let vb := st_token_b s in
  0 <= x -> cost_num c x <= cost_den c * balance w va ->
  0 <= drawn k vb w l1 + drawn k vb w2 l2 ->
  forall d, nth 4 accounts 0 = va -> sway c d ->
  let taken := balance w va + (balance w2 va - balance w1 va) - balance w' va in
  cost2_den c * taken <= cost2_den c * (n + balance w va) -
    cost2 c (Z.max 0 ((x + m) * ONE - d * (swaps k l1 + swaps k l2 + 2) - ONE)).
Proof. exact around_buyer_any. Qed.
Print Assumptions C109_buyer_any_partial.

(** The same around a sale. *)
Theorem C109_seller_any_partial : forall e w l1 w1 signers accounts n m w2 l2 w' k s c x,
  env_ok e -> reachable e w -> trace e w l1 w1 ->
  step e w1 (Instruction signers (Swap accounts n m)) w2 -> trace e w2 l2 w' ->
  pool_at w k s -> st_curve s = LinearPrice c -> nth 0 accounts 0 = k ->
  let va := st_token_a s in let vb := st_token_b s in
  0 <= x -> cost_num c x <= cost_den c * balance w va ->
  0 <= drawn k vb w l1 + drawn k vb w2 l2 ->
  forall d, nth 4 accounts 0 = vb -> sway c d ->
  let taken := balance w va + (balance w2 va - balance w1 va) - balance w' va in
  cost2_den c * taken <= cost2_den c * (balance w va - m) -
    cost2 c (Z.max 0 ((x - n) * ONE - d * (swaps k l1 + swaps k l2 + 2) - ONE)).
Proof. exact around_seller_any. Qed.
Print Assumptions C109_seller_any_partial.

(** The trades of the refutation.  The limit of 8 tokens, worth 416, leaves 584 of the
    1000; a limit of 18, what the buyer would have got, would have left 19. *)
Example C109_case : let c := mk_linear 1 2 50 1 in
  map (fun w => bals (Ok w) [101; 102; 111; 112; 121; 122]) [sw_w1; sw_w2; sw_w3; sw_w4] =
    [[0; 5000; 10000; 0; 1000; 0]; [10000; 4877; 0; 123; 1000; 0]; [11000; 4869; 0; 123; 0; 8]; [525; 4992; 10475; 0; 0; 8]] /\
  0 + (11000 - 10000) - 525 = 475 /\
  cost_num c 8 = 416 * cost_den c /\ cost_num c 18 = 981 * cost_den c /\
  bals (exec ex_env [902] sw_w1 (sw_buy 1000 18)) [122] = [18].
Proof. vm_compute. repeat split; reflexivity. Qed.
