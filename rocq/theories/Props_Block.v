(** Linear pools that stop trading: C121. *)
From Verif Require Import Ints DfsPrecise Fees LinearCurve SwapCurve Codec Token Processor Api History
  Spec LedgerSpec TraceSpec BlockSpec LinearFacts LedgerExamples HistoryExamples BlockFacts.

(** C121, refuted.  A linear pool can be created on which no swap ever succeeds: whatever happens, all
    of its 5000 tokens stay in its vault. *)
Theorem C121_trades_refuted : exists e w k s c, env_ok e /\ reachable e w /\ pool_at w k s /\ st_curve s = LinearPrice c /\
  linear_validate c = Ok tt /\ balance w (st_token_b s) = 5000 /\
  forall evs w', history e w evs w' -> 5000 <= balance w' (st_token_b s) /\
    forall signers accounts n m w2, nth 0 accounts 0 = k -> exec e signers w' (Swap accounts n m) <> Ok w2.
Proof. exact dead_forever. Qed.
Print Assumptions C121_trades_refuted.

(** It depends on the collateral in the vault alone: at a blocked amount swaps abort in both directions,
    whatever is offered, and at no other. *)
Theorem C121_aborts : forall c s ss sd d, linear_wf c -> linear_validate c = Ok tt -> is_u64 s -> is_u64 ss -> is_u64 sd ->
  (linear_swap c s ss sd d = Panic <-> blocked c (side_a d ss sd)).
Proof. exact blocked_aborts. Qed.
Print Assumptions C121_aborts.

Theorem C121_blocked : forall e signers w accounts n m s c w', env_ok e -> reachable e w ->
  pool_at w (nth 0 accounts 0) s -> st_curve s = LinearPrice c -> blocked c (balance w (st_token_a s)) ->
  exec e signers w (Swap accounts n m) <> Ok w'.
Proof. exact blocked_fails. Qed.
Print Assumptions C121_blocked.

(** So nothing leaves either vault while it is blocked. *)
Theorem C121_locked : forall e w ev w' k s c, env_ok e -> reachable e w -> step e w ev w' -> pool_at w k s ->
  st_curve s = LinearPrice c -> blocked c (balance w (st_token_a s)) ->
  balance w (st_token_a s) <= balance w' (st_token_a s) /\ balance w (st_token_b s) <= balance w' (st_token_b s).
Proof. exact blocked_step. Qed.
Print Assumptions C121_locked.

(** Amounts blocked for the same reason lie close together ... *)
Theorem C121_width : forall c k a d, linear_pos c -> 0 <= d -> blocked_at c k a -> blocked_at c k (a + d) ->
  2 * slope_num c * d * ONE < slope_den c * (4 ^ k - 1).
Proof. exact blocked_width. Qed.
Print Assumptions C121_width.

(** ... and a gift of collateral of about that size unblocks the pool.  If the slope is very large one unit
    may lead from one blocked amount to another; then two units unblock the pool ... *)
Theorem C121_unblocked : forall c k a, linear_pos c -> blocked_at c k a ->
  let d := slope_den c * 4 ^ k / (2 * slope_num c * ONE) in
  ~ blocked c (a + (d + 1)) \/ d = 0 /\ blocked c (a + 1) /\ ~ blocked c (a + 2).
Proof. exact blocked_thaws_any. Qed.
Print Assumptions C121_unblocked.

(** ... and that the first alternative always holds is false. *)
Theorem C121_one_unit_refuted : exists c, linear_wf c /\ linear_validate c = Ok tt /\ blocked c 0 /\ blocked c 1 /\ ~ blocked c 2.
Proof. exact blocked_next. Qed.
Print Assumptions C121_one_unit_refuted.

(** Anyone with enough collateral can block a pool whose slope is small, by a gift to the vault ... *)
Theorem C121_gift : forall c k a, linear_pos c -> 1 <= k -> disc c a <= (2 ^ 64 - 1) * 4 ^ k ->
  2 * slope_num c * ONE <= slope_den c * (4 ^ k - 3) -> 0 <= gift c k a /\ blocked_at c k (a + gift c k a).
Proof. exact gift_blocks. Qed.
Print Assumptions C121_gift.

(** ... which the token program carries out for the owner of any account of that mint. *)
Theorem C121_anyone : forall e w k s c j giver t, env_ok e -> reachable e w -> pool_at w k s -> st_curve s = LinearPrice c ->
  1 <= j -> disc c (balance w (st_token_a s)) <= (2 ^ 64 - 1) * 4 ^ j -> 2 * slope_num c * ONE <= slope_den c * (4 ^ j - 3) ->
  token_at w giver t -> t_mint t = st_token_a_mint s -> ~ is_pda e (t_owner t) ->
  let x := gift c j (balance w (st_token_a s)) in x <= t_amount t -> balance w (st_token_a s) + x <= u64_max ->
  exists w', step e w External w' /\ balance w' giver = t_amount t - x /\
    balance w' (st_token_a s) = balance w (st_token_a s) + x /\ (forall i, i <> giver -> i <> st_token_a s -> w' i = w i) /\
    blocked c (balance w' (st_token_a s)).
Proof. exact anyone_blocks. Qed.
Print Assumptions C121_anyone.

(** Anyone with that much collateral can also unblock a pool. *)
Theorem C121_anyone_unblocks : forall e w k s c j giver t, env_ok e -> reachable e w -> pool_at w k s -> st_curve s = LinearPrice c ->
  blocked_at c j (balance w (st_token_a s)) ->
  token_at w giver t -> t_mint t = st_token_a_mint s -> ~ is_pda e (t_owner t) ->
  let d := slope_den c * 4 ^ j / (2 * slope_num c * ONE) in
  d + 2 <= t_amount t -> balance w (st_token_a s) + d + 2 <= u64_max ->
  exists w' x, 0 < x <= d + 2 /\ step e w External w' /\ balance w' giver = t_amount t - x /\
    balance w' (st_token_a s) = balance w (st_token_a s) + x /\ (forall i, i <> giver -> i <> st_token_a s -> w' i = w i) /\
    ~ blocked c (balance w' (st_token_a s)).
Proof. exact anyone_unblocks. Qed.
Print Assumptions C121_anyone_unblocks.

(** A pool with a starting price of 17 and a slope of 5 * 10^-18. *)
Example C121_gift_case : let c := mk_linear 5 1000000000000000000 17 1 in let a := 1000000000 in let x := gift c 2 a in
  linear_validate c = Ok tt /\ disc c a <= (2 ^ 64 - 1) * 4 ^ 2 /\ 2 * slope_num c * ONE <= slope_den c * (4 ^ 2 - 3) /\
  x = 614790516935282585 /\
  linear_swap c 1000000000000000000 a 1000000000000000000 AtoB = Val (1000000000000000000, 58323292000000000) /\
  linear_swap c 1000000000000000000 (a + x) 1000000000000000000 AtoB = Panic /\
  linear_swap c 1000000000000000000 1000000000000000000 (a + x) BtoA = Panic.
Proof. vm_compute. intuition congruence. Qed.

(** The curve of the program's own test [minimum_token_exchange_rounding]: a purchase for
    5352122530420188597 units blocks the pool, the buyer cannot sell; a gift of one unit (0.3 rounded
    down and one more) unblocks it. *)
Example C121_case : let c := mk_linear 37 1400000000000000000 7 2 in let a := 5352122530420188597 in
  linear_validate c = Ok tt /\
  linear_swap c a 0 1000000000000000000 AtoB = Val (a, 517616671675675675) /\
  blocked_at c 2 a /\ linear_swap c 1000000000000000 482383328324324325 a BtoA = Panic /\
  slope_den c * 4 ^ 2 / (2 * slope_num c * ONE) = 0 /\
  linear_swap c 1000000000000000 482383328324324325 (a + 1) BtoA = Val (1000000000000000, 17166649705892875).
Proof. vm_compute. intuition congruence. Qed.

(** The pool of the refutation: all amounts up to 2^64 lie within the width. *)
Example C121_dead_case : let c := mk_linear 1 1000000000000000000 12156182983645710 164747 in
  linear_validate c = Ok tt /\ blocked_at c 34 0 /\ blocked_at c 34 u64_max /\
  2 * slope_num c * u64_max * ONE < slope_den c * (4 ^ 34 - 1) /\
  linear_swap c 1000000000000000000 0 5000 AtoB = Panic.
Proof. vm_compute. intuition congruence. Qed.

(** The curve of C121_one_unit_refuted, with a slope of 110. *)
Example C121_steep_case : let c := mk_linear 51991254427 469741925 50371910263699 5864062144386 in
  blocked_at c 1 0 /\ slope_den c * 4 ^ 1 / (2 * slope_num c * ONE) = 0 /\
  linear_swap c 1000 0 5000 AtoB = Panic /\ linear_swap c 1000 1 5000 AtoB = Panic /\
  linear_swap c 1000 2 5000 AtoB = Val (1000, 4).
Proof. vm_compute. intuition congruence. Qed.
