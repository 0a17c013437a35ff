(** C104: the production build. *)
From Verif Require Import Ints Fees LinearCurve SwapCurve Codec Token Processor Api History Spec LedgerSpec TraceSpec
  LedgerExamples ProductionFacts.

(** C104 is false: a trader pays the owner's fee (30000 A buy 9995 B at the price 3, 15 A are kept), but
    the owner's fee account gets nothing and no pool token is minted. *)
Theorem C104_paid_refuted : exists e owner signers w accounts ain w' s,
  env_ok e /\ constraints e = Some (production_constraints (Some owner)) /\ reachable e w /\ signers_ok e signers /\
  exec e signers w (Swap accounts ain 0) = Ok w' /\ pool_at w (nth 0 accounts 0) s /\
  (exists t, token_at w (st_pool_fee_account s) t /\ t_owner t = owner) /\
  ain = 30000 /\ balance w' (st_token_a s) = balance w (st_token_a s) + 30000 /\
  balance w' (st_token_b s) = balance w (st_token_b s) - 9995 /\ st_curve s = ConstantPrice 3 /\
  balance w' (st_pool_fee_account s) = balance w (st_pool_fee_account s) /\ shares w' s = shares w s.
Proof. exact production_unpaid. Qed.
Print Assumptions C104_paid_refuted.

(** C104, the pools of a production build: constant price, at least 5/10000 for the owner, 20/100 of it for
    a host, nothing on withdrawals; there are none if the owner's key cannot be read. *)
Theorem C104_pools : forall e o w k s, env_ok e -> constraints e = Some (production_constraints o) ->
  reachable e w -> pool_at w k s ->
  exists owner p t own, o = Some owner /\ st_curve s = ConstantPrice p /\ 0 < p <= u64_max /\
    st_fees s = mk_fees t 10000 own 10000 0 0 20 100 /\ 0 <= t < 10000 /\ 5 <= own < 10000.
Proof. exact production_pool. Qed.
Print Assumptions C104_pools.
Example C104_pools_case : exists s, pool_at prod_w1 300 s /\ st_curve s = ConstantPrice 3 /\ owner_trade_fee_num (st_fees s) = 5.
Proof. exists prod_pool. split; [exact prod_pool_at |]. split; reflexivity. Qed.

(** C104, creation: no linear pool, and the fee account belongs to the owner. *)
Theorem C104_created : forall e o signers w i w', constraints e = Some (production_constraints o) ->
  creates i -> exec e signers w i = Ok w' ->
  exists accounts p t own tf, i = InitConstantPrice accounts (mk_fees t 10000 own 10000 0 0 20 100) p /\
    0 <= t < 10000 /\ 5 <= own < 10000 /\
    token_at w (nth 5 accounts 0) tf /\ o = Some (t_owner tf).
Proof. exact production_creates. Qed.
Print Assumptions C104_created.
(** The linear pool of the example ledger is refused; so is a fee account of somebody else. *)
Example C104_created_case :
  (match exec prod_env [100] ex_w0 ex_init1 with Err (ESwap UnsupportedCurveType) => True | _ => False end) /\
  (match exec prod_env [300] prod_w0 prod_init with Ok _ => True | _ => False end) /\
  (match exec prod_env [300] prod_w0
     (InitConstantPrice [300; auth 300; 301; 302; 403; 304; 304; TOKEN_PROGRAM_ID] prod_fees 3) with
   | Err (ESwap InvalidOwner) => True | _ => False end) /\
  (match exec prod_env [300] prod_w0
     (InitConstantPrice [300; auth 300; 301; 302; 403; 303; 304; TOKEN_PROGRAM_ID] (mk_fees 0 10000 4 10000 0 0 20 100) 3) with
   | Err (ESwap InvalidFee) => True | _ => False end).
Proof. vm_compute. repeat split. Qed.

(** C104, what a trade pays the owner: its fee, less the trading fee on half of it, converted to pool tokens
    at the value of the pool after the trade and rounded up - or nothing if it is worth less than half a pool
    token. *)
Theorem C104_paid_partial : forall e o signers w accounts ain mout w' s, env_ok e ->
  constraints e = Some (production_constraints o) -> reachable e w ->
  exec e signers w (Swap accounts ain mout) = Ok w' -> pool_at w (nth 0 accounts 0) s ->
  exists p t own, st_curve s = ConstantPrice p /\ st_fees s = mk_fees t 10000 own 10000 0 0 20 100 /\
    0 < p /\ 0 <= t < 10000 /\ 5 <= own < 10000 /\ 0 < ain /\
    let d := if nth 4 accounts 0 =? st_token_a s then AtoB else BtoA in
    let fee := Z.max 1 (ain * own / 10000) in
    let half := if t =? 0 then 0 else Z.max 1 (Z.max 1 (fee / 2) * t / 10000) in
    let m := shares w' s - shares w s in
    let V := worth w' s p in let v := value_of p (fee - half) d in
    0 <= half <= fee /\ 0 < V /\
    (m = 0 /\ 2 * (shares w s * v) < V \/ 0 < m /\ V <= 2 * (shares w s * v) /\ (m - 1) * V < shares w s * v <= m * V).
Proof. exact production_pays. Qed.
Print Assumptions C104_paid_partial.
(** In the pool of the refutation a pool token is worth 40 A: a trade of 42000 A pays 21 A and mints one,
    one of 41999 A pays 20 A and mints none. *)
Example C104_paid_case :
  bals (exec prod_env [901] prod_w1 (Swap prod_accounts 42000 0)) [303; 403] = [1; 10 ^ 9 + 1] /\
  bals (exec prod_env [901] prod_w1 (Swap prod_accounts 41999 0)) [303; 403] = [0; 10 ^ 9] /\
  bals (exec prod_env [901] prod_w1 (Swap prod_accounts 8000000 0)) [303; 403] = [100; 10 ^ 9 + 100].
Proof. vm_compute. repeat split; reflexivity. Qed.
