(** Draining a linear pool: C120. *)
From Verif Require Import Ints DfsPrecise Fees LinearCurve SwapCurve Codec Token Processor Api History
  Spec LedgerSpec TraceSpec RoundSpec LinearProps LinearHistory RandomTests RoundTrip LedgerExamples HistoryExamples CoverWitness
  DrainFacts.

(** C120.  A pool that starts without collateral and holds none at the end has all its tokens back. *)
Theorem C120_drained : forall c f T D ops,
  linear_wf c -> linear_validate c = Ok tt -> fine c T -> costly c T -> feeless f -> is_u64 D ->
  (forall x, ~ In (TopUp x) ops) ->
  let st := lrun c f (mk_lpool 0 D 0) ops in held st = 0 -> D <= left st.
Proof. exact drained_history. Qed.
Print Assumptions C120_drained.

(** The same on the ledger, from any reachable state on and with whatever else happens there:
    nobody empties the vault of collateral without having brought back all tokens. *)
Theorem C120_ledger : forall e w evs w' k s c T, env_ok e -> reachable e w -> history e w evs w' ->
  pool_at w k s -> st_curve s = LinearPrice c -> fine c T -> costly c T ->
  balance w' (st_token_a s) = 0 -> balance w (st_token_b s) <= balance w' (st_token_b s).
Proof. exact drained_ledger. Qed.
Print Assumptions C120_ledger.

(** The program's own test buys all tokens in small steps and sells until the collateral is gone:
    its final assertion holds for every such curve, supply and step.  Not shown: that no [unwrap]
    fails on the way (see C13), that the collateral taken in fits into 64 bits, and that the loops
    end. *)
Theorem C120_test_partial : forall rounds c T supply step a v,
  linear_wf c -> linear_validate c = Ok tt -> fine c T -> costly c T -> 0 <= step -> is_u64 supply -> 0 < supply ->
  buy_all rounds c supply step 0 supply = Some (Go a) -> a <= u64_max ->
  round_trip rounds c supply step = Some v -> v = Passed \/ v = Broke.
Proof. exact round_trip_passes. Qed.
Print Assumptions C120_test_partial.

(** The number of rounds the loops are followed for does not matter. *)
Theorem C120_rounds : forall rounds rounds' c supply step v, (rounds <= rounds')%nat ->
  round_trip rounds c supply step = Some v -> round_trip rounds' c supply step = Some v.
Proof. exact round_trip_more. Qed.
Print Assumptions C120_rounds.

(** Not for every curve the program accepts: all 24 tokens of one bought for 2, the collateral taken
    out with 23. *)
Theorem C120_test_refuted : exists c supply step, linear_validate c = Ok tt /\
  forall rounds, (8 <= rounds)%nat -> buy_all rounds c supply step 0 supply = Some (Go 2) /\
    sell_all rounds c step 2 0 = Some (Go (supply - 1)) /\ round_trip rounds c supply step = Some Violated.
Proof. exact round_trip_fails. Qed.
Print Assumptions C120_test_refuted.

(** The curve in the test, bought in steps of 10^18. *)
Example C120_case : let c := mk_linear 37 1400000000000000000 7 2 in
  fine c 43243243243243247 /\ costly c 43243243243243247 /\ linear_validate c = Ok tt /\
  buy_all 60 c (10 ^ 18) (10 ^ 18) 0 (10 ^ 18) = Some (Go 16714285834323552534) /\
  round_trip 200 c (10 ^ 18) (10 ^ 18) = Some Passed.
Proof. vm_compute. intuition congruence. Qed.

(** 20 tokens bought in small steps for 130, and sold until the collateral is gone; and a
    history that returns to the start. *)
Example C120_small : let c := mk_linear 1 3 7 3 in
  fine c 9 /\ costly c 9 /\
  buy_all 60 c 20 1 0 20 = Some (Go 130) /\ sell_all 60 c 1 130 0 = Some (Go 42) /\ round_trip 60 c 20 1 = Some Passed /\
  lrun c no_fees (mk_lpool 0 20 0) [Buy 30; Buy 30; Sell 19; Buy 30; Sell 10; Sell 12] = mk_lpool 0 20 0.
Proof. vm_compute. intuition congruence. Qed.

(** On the ledger: 2 tokens leave the vault for 125, and 125 come back with 2 tokens. *)
Example C120_ledger_case : fine (mk_linear 1 2 50 1) 2 /\ costly (mk_linear 1 2 50 1) 2 /\
  history ex_env ex_w2 [Instruction [901] (cw_buy 125); Instruction [901] (cw_sell 3)] cw_b /\
  bals (Ok ex_w2) [101; 102] = [0; 5000] /\ bals (Ok cw_a) [101; 102] = [125; 4998] /\
  bals (Ok cw_b) [101; 102] = [0; 5000].
Proof.
  split; [vm_compute; intuition congruence |]. split; [vm_compute; congruence |].
  split; [| vm_compute; auto].
  apply (history_cons ex_env ex_w2 _ cw_a); [exact cw_step_a |].
  apply (history_cons ex_env cw_a _ cw_b); [exact cw_step_b | constructor].
Qed.

(** The first offer of a sale rounds the positions so that it comes out low. *)
Example C120_offer_case : let c := mk_linear 1 1000000000000000000 1 1 in
  sell_offer c 10000000000 543210987654321000 = Go 6500000000 /\ sell_offer c 10000000000 12345678987654321 = Go 9500000000.
Proof. vm_compute. split; reflexivity. Qed.
