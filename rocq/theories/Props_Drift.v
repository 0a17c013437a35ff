(** What a trade can cost the backing of any linear pool: C105. *)
From Verif Require Import Ints Tactics DfsPrecise Fees LinearCurve SwapCurve Codec Token Processor Api History
  Spec LedgerSpec TraceSpec LinearProps LinearRound LinearHistory LinearBacked LedgerExamples HistoryExamples
  DriftSpec DriftFacts FreeFacts DriftLedger.

(** C105, that rounding takes nothing from the pool: false for some curves that can be
    created.  With slope 10^-18 and starting price 0.999 * 10^-9, buying for 6 and
    selling 88% of what was bought for 6, over and over, takes any number of tokens out
    of the pool, and the collateral it ends with is two units. *)
Theorem C105_free_refuted : exists c, linear_wf c /\ linear_validate c = Ok tt /\
  forall K, K <= 10 ^ 19 -> exists ops,
    let st := lrun c no_fees (mk_lpool 0 u64_max 0) ops in
    held st = 2 /\ K <= sold st /\
    (forall s, In (Buy s) ops -> s <= 6) /\ (forall x, ~ In (GiveA x) ops /\ ~ In (GiveB x) ops /\ ~ In (TopUp x) ops).
Proof. exact free_tokens. Qed.
Print Assumptions C105_free_refuted.

(** The same on the ledger: two swaps of one user, who ends with the collateral they had
    and 235620942 more tokens; the vault of collateral is as before. *)
Theorem C105_loop_refuted : exists e w l w' k s c user money tokens,
  env_ok e /\ reachable e w /\ trace e w l w' /\ pool_at w k s /\ st_curve s = LinearPrice c /\
  Forall (fun p => swaps_on k (fst p) = true /\ exists i, fst p = Instruction [user] i) l /\
  balance w' (st_token_a s) = balance w (st_token_a s) /\ balance w' money = balance w money /\
  balance w' (st_token_b s) = balance w (st_token_b s) - 235620942 /\
  balance w' tokens = balance w tokens + 235620942.
Proof. exact free_loop. Qed.
Print Assumptions C105_loop_refuted.

(** C105.  It cannot be worse than this, on any curve that can be created and over any
    history: if the first [d] of the curve cost two units, each sale, and each purchase
    that empties the pool, leaves at most [d] further tokens without cover.  Purchases
    that leave something in the pool cost nothing, and neither do gifts. *)
Theorem C105_history_partial : forall c f d D ops,
  linear_wf c -> linear_validate c = Ok tt -> feeless f -> sway c d -> is_u64 D ->
  let st := lrun c f (mk_lpool 0 D 0) ops in
  cost2 c (Z.max 0 (sold st * ONE - d * roundings c f (mk_lpool 0 D 0) ops - ONE)) <= cost2_den c * held st.
Proof. exact drift_history. Qed.
Print Assumptions C105_history_partial.

(** Without parameters: two billion of the smallest units of the bonded token. *)
Theorem C105_any_partial : forall c f D ops,
  linear_wf c -> linear_validate c = Ok tt -> feeless f -> is_u64 D ->
  let st := lrun c f (mk_lpool 0 D 0) ops in
  let lost := 2 * 10 ^ 9 * roundings c f (mk_lpool 0 D 0) ops + 1 in
  cost_num c (Z.max 0 (sold st - lost)) <= cost_den c * held st.
Proof. exact drift_any. Qed.
Print Assumptions C105_any_partial.

(** C105 on the ledger, from any point of the life of any linear pool on. *)
Theorem C105_trace_partial : forall e w l w' k s c d x, env_ok e -> reachable e w -> trace e w l w' ->
  pool_at w k s -> st_curve s = LinearPrice c -> sway c d ->
  0 <= x -> cost_num c x <= cost_den c * balance w (st_token_a s) ->
  let y := x + drawn k (st_token_b s) w l in
  cost2 c (Z.max 0 (y * ONE - d * (swaps k l + 1) - ONE)) <= cost2_den c * balance w' (st_token_a s).
Proof. exact drift_trace. Qed.
Print Assumptions C105_trace_partial.

(** Three rounds for nothing, then others buy for a million: 999 units are missing.
    The bound is 1236620943 tokens per sale; here it is 235620942. *)
Example C105_case : let d := 1236620943 * 10 ^ 18 in
  sway thin d /\ ~ sway thin (d - 10 ^ 18) /\
  let ops := Buy 2 :: free_cycle ++ free_cycle ++ free_cycle ++ [Buy 999998] in
  lrun thin no_fees (mk_lpool 0 (10 ^ 15) 0) ops = mk_lpool 1000000 998586078575163 1413921424837 /\
  roundings thin no_fees (mk_lpool 0 (10 ^ 15) 0) ops = 3 /\
  cost_den thin * 1000999 < cost_num thin 1413921424837 < cost_den thin * 1001000 /\
  cost_num thin (1413921424837 - 3 * 235620942) <= cost_den thin * 1000000 /\
  cost_den thin * 995757 < cost_num thin (1413921424837 - 3 * 1236620943 - 1) < cost_den thin * 995758.
Proof. vm_compute. intuition congruence. Qed.

(** A curve of ordinary size: half a token per sale. *)
Example C105_plain : let c := mk_linear 1 2 50 1 in sway c (5 * 10 ^ 17) /\
  lrun c no_fees (mk_lpool 0 5000 0) [Buy 1000; Sell 7; Buy 500; Sell 4] = mk_lpool 923 4985 15 /\
  roundings c no_fees (mk_lpool 0 5000 0) [Buy 1000; Sell 7; Buy 500; Sell 4] = 2 /\
  cost_num c (15 - 1 - 1) = cost_den c * 692 + 1.
Proof. vm_compute. intuition congruence. Qed.

(** The swaps of the user on the ledger. *)
Example C105_ledger_case :
  bals (Ok fr_w2) [101; 102; 111; 112] = [2; 998999000000; 6; 1001000000] /\
  bals (Ok fr_w3) [101; 102; 111; 112] = [8; 996999000000; 0; 3001000000] /\
  bals (Ok fr_w4) [101; 102; 111; 112] = [2; 998763379058; 6; 1236620942] /\
  swaps 100 [(Instruction [901] (CoverWitness.cw_buy 6), fr_w3); (Instruction [901] (CoverWitness.cw_sell 1764379058), fr_w4)] = 2.
Proof. vm_compute. intuition congruence. Qed.
