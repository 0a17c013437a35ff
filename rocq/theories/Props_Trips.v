(** C102: entering a constant-price pool and leaving it again. *)
From Verif Require Import Ints Fees LinearCurve SwapCurve Codec Token Processor Api History Spec LedgerSpec TraceSpec TripSpec
  LedgerExamples HistoryExamples TripFacts TripGifts.

(** C102, refuted, with a trading fee of 0.25% and a withdrawal fee of 0.3%.  A user deposits both tokens
    and withdraws them again one at a time.  The user then has all tokens back, the pool has all of
    its own, and more than 13 percent of the pool tokens are the user's. *)
Theorem C102_trip_refuted : exists e user w l w' s p own_a own_b own, env_ok e /\ reachable e w /\ signers_ok e [user] /\
  trace e w l w' /\ Forall (fun x => exists i, fst x = Instruction [user] i) l /\
  (exists k, pool_at w k s) /\ st_curve s = ConstantPrice p /\ 0 < owner_withdraw_fee_num (st_fees s) /\
  (forall k, In k [st_token_a s; st_token_b s; own_a; own_b] -> balance w' k = balance w k) /\
  balance w own = 0 /\ 13 * shares w' s <= 100 * balance w' own.
Proof. exact trip_profit. Qed.
Print Assumptions C102_trip_refuted.

(** The reason.  The trading fee is taken off the amount before it is turned into pool tokens, so
    the higher the fee the fewer pool tokens are asked for.  The least fee is 1, hence two tokens
    are paid out for the pool tokens of one, on every curve. *)
Theorem C102_two_for_one : forall c a b supply d f, fees_wf f -> 0 < trade_fee_num f < trade_fee_den f ->
  curve_withdraw_single c 2 a b supply d f = calc_withdraw_single c 1 a b supply d.
Proof. exact two_for_one. Qed.
Print Assumptions C102_two_for_one.

(** C102 otherwise.  Without trading fees nobody gains by any sequence of instructions and outside
    actions that ends with no fewer pool tokens than it began with: the pool is worth no less, but for
    one unit of token A, times the supply over its lowest level [m], for each two-sided deposit.
    (Full statement: with trading fees; see below.) *)
Theorem C102_trip_partial : forall e w l w' k s p m, env_ok e -> reachable e w -> trace e w l w' ->
  pool_at w k s -> st_curve s = ConstantPrice p ->
  trade_fee_num (st_fees s) = 0 -> owner_trade_fee_num (st_fees s) = 0 ->
  0 < m <= shares w s -> Forall (fun x => m <= shares (snd x) s) l -> shares w s <= shares w' s ->
  worth w s p * m <= worth w' s p * m + entries k l * shares w s.
Proof. exact trip_fair. Qed.
Print Assumptions C102_trip_partial.

(** With any fees, over any history: the pool is worth no less but for one unit of token A for each
    two-sided deposit and for what the fees give away: the trading fee on half of each one-sided
    withdrawal, and one pool token for each swap that creates some.  Both are taken times the supply
    over its lowest level [m].  (Full statement: nothing is given away.) *)
Theorem C102_trip_fees_partial : forall e w l w' k s p m, env_ok e -> reachable e w -> trace e w l w' ->
  pool_at w k s -> st_curve s = ConstantPrice p ->
  0 < m <= shares w s -> Forall (fun x => m <= shares (snd x) s) l -> shares w s <= shares w' s ->
  worth w s p * m <= worth w' s p * m + (entries k l + gifts k s p w l) * shares w s.
Proof. exact trip_gifts. Qed.
Print Assumptions C102_trip_fees_partial.

(** The same for the worth of a single pool token, wherever the supply ends. *)
Theorem C102_share_partial : forall e w l w' k s p m, env_ok e -> reachable e w -> trace e w l w' ->
  pool_at w k s -> st_curve s = ConstantPrice p ->
  0 < m <= shares w s -> Forall (fun x => m <= shares (snd x) s) l ->
  worth w s p * shares w' s * m <= worth w' s p * shares w s * m
    + (entries k l + gifts k s p w l) * shares w s * shares w' s.
Proof. exact share_gifts. Qed.
Print Assumptions C102_share_partial.

(** In the history that refutes the claim: six withdrawals are let off fees of 1 B (five times) and
    of 12 A, in all 5012 of the 20000 the pool was worth. *)
Example C102_gifts_case :
  gifts 300 trip_pool 1000 trip_w1 (trip_from trip_w1 trip_instrs) = 5012 /\
  entries 300 (trip_from trip_w1 trip_instrs) = 1 /\ worth trip_w1 trip_pool 1000 = 20000.
Proof. vm_compute. repeat split; reflexivity. Qed.

(** The ledger at the start, after the deposit and at the end; vaults, supply, pool tokens of the
    founder, the owner and the user, the user's A and B. *)
Example C102_case :
  let see w := bals (Ok w) [301; 302; 403; 304; 303; 305; 113; 114] in
  see trip_w1 = [10000; 10; 1000000000; 1000000000; 0; 0; 10000; 10] /\
  see (run1 [902] trip_w1 trip_enter) = [20000; 20; 2000000000; 1000000000; 0; 1000000000; 0; 0] /\
  see trip_end = [10000; 10; 1157801904; 1000000000; 2526592; 155275312; 10000; 10] /\
  curve_withdraw_single (ConstantPrice 1000) 2 20000 20 2000000000 BtoA trip_fees = Val 50000000 /\
  curve_withdraw_single (ConstantPrice 1000) 2 20000 20 2000000000 BtoA (mk_fees 0 0 0 0 0 0 0 0) = Val 100000000.
Proof. vm_compute. repeat split; reflexivity. Qed.
