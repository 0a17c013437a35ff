(** Backing of linear pools with arbitrary parameters: C84. *)
From Verif Require Import Ints Tactics DfsPrecise Fees LinearCurve SwapCurve Codec Token Processor Api History
  Spec LedgerSpec TraceSpec RoundSpec LinearProps LinearRound LinearHistory LinearBacked LedgerExamples HistoryExamples
  CoverWitness BackFacts BackLedger.

(** C84.  Slope and starting price need not have exact decimal images.  As long as
    no purchase empties the pool, the collateral covers all tokens in circulation but
    2 T units of 10^-18 tokens, however long the history.  Where 2 T units cost less
    than costs can differ by, it covers all of them. *)
Theorem C84_history : forall c f T D ops,
  linear_wf c -> linear_validate c = Ok tt -> fine c T -> 4 * T <= ONE -> feeless f -> is_u64 D ->
  (forall pre s post, ops = pre ++ Buy s :: post ->
     left (lrun c f (mk_lpool 0 D 0) (pre ++ [Buy s])) = 0 ->
     left (lrun c f (mk_lpool 0 D 0) pre) <= 0) ->
  let st := lrun c f (mk_lpool 0 D 0) ops in
  cost2 c (Z.max 0 (sold st * ONE - 2 * T)) <= cost2_den c * held st /\
  (4 * T * price_num_at c (sold st * ONE) < ONE * ONE -> cost_num c (Z.max 0 (sold st)) <= cost_den c * held st).
Proof. exact rounded_history. Qed.
Print Assumptions C84_history.

(** C84 with purchases that empty the pool, if tokens start at somewhat over a unit of
    collateral: one unit may be missing while the pool is sold out, and it comes back. *)
Theorem C84_history_sell_out : forall c f T D ops,
  linear_wf c -> linear_validate c = Ok tt -> fine c T -> costly c T -> feeless f -> is_u64 D ->
  (forall x, ~ In (TopUp x) ops) ->
  let st := lrun c f (mk_lpool 0 D 0) ops in
  cost2 c (Z.max 0 (sold st * ONE - 2 * T)) <= cost2_den c * (held st + 1) /\
  (left st <> 0 -> cost2 c (Z.max 0 (sold st * ONE - 2 * T)) <= cost2_den c * held st).
Proof. exact rounded_always. Qed.
Print Assumptions C84_history_sell_out.

(** C84 on the ledger, from any point of the life of a pool on: if the collateral covers
    [x] tokens, it goes on covering [x] plus what the swaps took out since. *)
Theorem C84_trace : forall e w l w' k s c T x, env_ok e -> reachable e w -> trace e w l w' ->
  pool_at w k s -> st_curve s = LinearPrice c -> fine c T -> 4 * T <= ONE ->
  let va := st_token_a s in let vb := st_token_b s in
  Forall (fun p => 0 < balance (snd p) vb) l ->
  0 <= x -> cost_num c x <= cost_den c * balance w va ->
  let y := x + drawn k vb w l in
  cost2 c (Z.max 0 (y * ONE - 2 * T)) <= cost2_den c * balance w' va /\
  (4 * T * price_num_at c (y * ONE) < ONE * ONE -> cost_num c (Z.max 0 y) <= cost_den c * balance w' va).
Proof. exact rounded_trace. Qed.
Print Assumptions C84_trace.

Theorem C84_ledger : forall e w evs w' k s c T x, env_ok e -> reachable e w -> history e w evs w' ->
  pool_at w k s -> st_curve s = LinearPrice c -> fine c T -> costly c T ->
  let va := st_token_a s in let vb := st_token_b s in
  0 <= x -> cost_num c x <= cost_den c * balance w va ->
  let y := x + balance w vb - balance w' vb in
  cost2 c (Z.max 0 (y * ONE - 2 * T)) <= cost2_den c * (balance w' va + 1) /\
  (balance w' vb <> 0 ->
     cost2 c (Z.max 0 (y * ONE - 2 * T)) <= cost2_den c * balance w' va /\
     (4 * T * price_num_at c (y * ONE) < ONE * ONE -> cost_num c (Z.max 0 y) <= cost_den c * balance w' va)).
Proof. exact rounded_ledger. Qed.
Print Assumptions C84_ledger.

(** Slope 1/3, starting price 7/3: 9 units of rounding.  16 tokens cost 80 and 97 are
    held; a pool of 20 sells out for 113, a third of a unit short, and after the sale of
    10 tokens the remaining 10 are covered exactly. *)
Example C84_case : let c := mk_linear 1 3 7 3 in
  fine c 9 /\ ~ fine c 8 /\ costly c 9 /\ ~ decimal c /\
  lrun c no_fees (mk_lpool 0 1000 0) [Buy 150; Sell 10; Buy 100; Sell 20; Buy 77] = mk_lpool 97 984 16 /\
  cost_num c 16 = cost_den c * 80 /\ 4 * 9 * price_num_at c (16 * ONE) < ONE * ONE /\
  lrun c no_fees (mk_lpool 0 20 0) [Buy 150] = mk_lpool 113 0 20 /\
  cost2_den c * 113 < cost2 c (20 * ONE - 18) /\
  lrun c no_fees (mk_lpool 0 20 0) [Buy 150; Sell 10] = mk_lpool 40 10 10 /\ cost_num c 10 = cost_den c * 40.
Proof.
  cbv zeta. split; [vm_compute; intuition congruence |]. split; [vm_compute; intuition congruence |].
  split; [vm_compute; congruence |].
  split; [intros ((k & K) & _); cbn [slope_num slope_den] in K; change (10 ^ 18) with 1000000000000000000 in K; lia |].
  vm_compute. repeat split; congruence.
Qed.

(** On the ledger: the swap that takes 2 tokens for 125. *)
Example C84_ledger_case : fine (mk_linear 1 2 50 1) 2 /\ costly (mk_linear 1 2 50 1) 2 /\
  bals (Ok ex_w2) [101; 102] = [0; 5000] /\ bals (Ok cw_a) [101; 102] = [125; 4998] /\
  cost_num (mk_linear 1 2 50 1) 2 = cost_den (mk_linear 1 2 50 1) * 101 /\
  4 * 2 * price_num_at (mk_linear 1 2 50 1) (2 * ONE) < ONE * ONE.
Proof. vm_compute. intuition congruence. Qed.
