(** Which offers of collateral a linear pool accepts: C103. *)
From Verif Require Import Ints DfsPrecise Fees LinearCurve SwapCurve Codec Token Processor Api History Spec LedgerSpec LiveSpec
  LinearProps LedgerExamples HistoryExamples CoverWitness OfferFacts OfferLedger.

(** C103, refuted: 14454 tokens remain that cost less than one unit.  An offer of 1 gets
    all of them, an offer of 2 nothing. *)
Theorem C103_more_refuted : exists c a dest s s' r,
  linear_wf c /\ linear_validate c = Ok tt /\ is_u64 a /\ is_u64 dest /\ is_u64 s /\ is_u64 s' /\ s <= s' /\
  curve_swap (LinearPrice c) s a dest AtoB no_fees = Val r /\
  curve_swap (LinearPrice c) s' a dest AtoB no_fees = Non.
Proof. exact more_fails. Qed.
Print Assumptions C103_more_refuted.

(** C103, if the remaining tokens are worth two units even at the start of the curve. *)
Theorem C103_more_partial : forall c f s s' a dest r, linear_wf c -> linear_validate c = Ok tt -> feeless f ->
  is_u64 s -> is_u64 s' -> is_u64 a -> is_u64 dest -> s <= s' -> 2 * cost_den c <= cost_num c dest ->
  curve_swap (LinearPrice c) s a dest AtoB f = Val r ->
  exists r', curve_swap (LinearPrice c) s' a dest AtoB f = Val r'.
Proof. exact accept_more. Qed.
Print Assumptions C103_more_partial.

(** C103.  So there is a smallest purchase: exactly the offers from it on are accepted.
    [2 ^ 64] means that none is. *)
Theorem C103_smallest_partial : forall c f a dest, linear_wf c -> linear_validate c = Ok tt -> feeless f ->
  is_u64 a -> is_u64 dest -> 2 * cost_den c <= cost_num c dest ->
  exists t, 0 < t <= 2 ^ 64 /\ forall s, is_u64 s ->
    ((exists r, curve_swap (LinearPrice c) s a dest AtoB f = Val r) <-> t <= s).
Proof. exact smallest_offer. Qed.
Print Assumptions C103_smallest_partial.

(** C103 on the ledger, under the same condition: a buyer whose offer was accepted could have offered
    more with the same limit, as long as they can pay, the vault has room for it and the buyer's account
    for the tokens of the pool; and they would have got at least as many tokens. *)
Theorem C103_ledger_partial : forall e signers w pool authority s c user source dest rest n n' mout x w1,
  env_ok e -> reachable e w -> signers_ok e signers ->
  pool_at w pool s -> st_curve s = LinearPrice c -> find_pda e pool = Some (authority, st_bump_seed s) ->
  is_u64 n -> is_u64 n' -> is_u64 mout -> In user signers -> single_signer w user -> single_signer w authority ->
  thawed w (st_token_a s) -> thawed w (st_token_b s) -> wallet w source user (st_token_a_mint s) x ->
  accepts w dest (st_token_b_mint s) (balance w (st_token_b s)) ->
  n <= n' -> n' <= x -> balance w (st_token_a s) + n' <= u64_max ->
  2 * cost_den c <= cost_num c (balance w (st_token_b s)) ->
  let accounts := pool :: authority :: user :: source :: st_token_a s :: st_token_b s :: dest
                    :: st_pool_mint s :: st_pool_fee_account s :: TOKEN_PROGRAM_ID :: rest in
  exec e signers w (Swap accounts n mout) = Ok w1 ->
  exists w2, exec e signers w (Swap accounts n' mout) = Ok w2 /\ balance w2 (st_token_b s) <= balance w1 (st_token_b s).
Proof. exact buy_more_ledger. Qed.
Print Assumptions C103_ledger_partial.

(** The curve of test_taki (linear_price.rs 1570-1799): the smallest purchase from the new
    pool is 132432433, and up to twice that all buyers get the same 37837837 tokens. *)
Theorem C103_taki : forall s, is_u64 s ->
  let q := curve_swap (LinearPrice (mk_linear 37 1400000000000000000 7 2)) s 0 1285000000000000 AtoB no_fees in
  ((exists r, q = Val r) <-> 132432433 <= s) /\
  (132432433 <= s <= 264864864 -> q = Val (mk_swap_result s (1285000000000000 - 37837837) s 37837837 0 0)).
Proof. exact taki_offers. Qed.
Print Assumptions C103_taki.

Example C103_case :
  let c := mk_linear 1 10 1 1 in
  2 * cost_den c <= cost_num c 20 /\
  curve_swap (LinearPrice c) 3 50 20 AtoB no_fees = Non /\
  curve_swap (LinearPrice c) 4 50 20 AtoB no_fees = Val (mk_swap_result 54 19 4 1 0 0) /\
  curve_swap (LinearPrice c) 86 50 20 AtoB no_fees = Val (mk_swap_result 136 0 86 20 0 0) /\
  curve_swap (LinearPrice c) 1000 50 20 AtoB no_fees = Val (mk_swap_result 136 0 86 20 0 0).
Proof. vm_compute. repeat split; congruence. Qed.

(** On the example ledger: 1000 and 2000 units for the first tokens of the linear pool. *)
Example C103_ledger_case :
  2 * cost_den (mk_linear 1 2 50 1) <= cost_num (mk_linear 1 2 50 1) 5000 /\
  bals (Ok ex_w2) [101; 102; 111; 112] = [0; 5000; 100000; 50000] /\
  bals (Ok (run1 [901] ex_w2 (cw_buy 1000))) [101; 102; 111; 112] = [1000; 4982; 99000; 50018] /\
  bals (Ok (run1 [901] ex_w2 (cw_buy 2000))) [101; 102; 111; 112] = [2000; 4966; 98000; 50034].
Proof. vm_compute. repeat split; congruence. Qed.
