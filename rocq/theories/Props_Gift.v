(** Gifts of collateral to a linear pool: C123. *)
From Verif Require Import Ints DfsPrecise Fees LinearCurve SwapCurve Codec Token Processor Api History
  Spec LedgerSpec TraceSpec GiftSpec LinearFacts GiftFacts.

(** C123 for a sale.  A gift of [g] units raises what the next sale pays by at most [g]: the pool
    keeps at least as much collateral, and takes at least as many tokens. *)
Theorem C123_sale : forall c n b a g t x t' x', linear_wf c -> is_u64 n -> is_u64 b -> is_u64 a -> 0 <= g -> is_u64 (a + g) ->
  linear_swap c n b a BtoA = Val (t, x) -> linear_swap c n b (a + g) BtoA = Val (t', x') -> x' <= x + g /\ t <= t'.
Proof. exact gift_sale. Qed.
Print Assumptions C123_sale.

(** Nor do any number of sales pay the gift back: together they pay at most [g] more. *)
Theorem C123_sales : forall c ns a b g r q r' q', linear_wf c -> is_u64 a -> 0 <= g -> is_u64 (a + g) ->
  sales c ns a b r q -> sales c ns (a + g) b r' q' -> a + g - r' <= a - r + g.
Proof. exact gift_sales. Qed.
Print Assumptions C123_sales.

(** On the ledger: of two worlds with the same pool, the one with more collateral in the vault has no
    less after the same sale, whoever sells and whatever happened before. *)
Theorem C123_ledger : forall e k s c sg1 sg2 acc1 acc2 n m1 m2 w1 w2 w1' w2', env_ok e -> reachable e w1 -> reachable e w2 ->
  pool_at w1 k s -> pool_at w2 k s -> st_curve s = LinearPrice c ->
  nth 0 acc1 0 = k -> nth 0 acc2 0 = k -> nth 4 acc1 0 <> st_token_a s -> nth 4 acc2 0 <> st_token_a s ->
  exec e sg1 w1 (Swap acc1 n m1) = Ok w1' -> exec e sg2 w2 (Swap acc2 n m2) = Ok w2' ->
  balance w1 (st_token_a s) <= balance w2 (st_token_a s) -> balance w1' (st_token_a s) <= balance w2' (st_token_a s).
Proof. exact sale_ledger. Qed.
Print Assumptions C123_ledger.

(** C123 for a purchase: whoever gives [g] units and buys for [s] gets no more tokens than for [s + g].
    Missing: the purchase of the last tokens if they would cost less than two units at the start of the curve. *)
Theorem C123_purchase_partial : forall c s a g dest t x t' x', linear_wf c -> is_u64 s -> is_u64 a -> 0 <= g -> is_u64 (a + g) ->
  is_u64 (s + g) -> is_u64 dest ->
  linear_swap c (s + g) a dest AtoB = Val (t, x) -> linear_swap c s (a + g) dest AtoB = Val (t', x') ->
  x' < dest \/ linear_validate c = Ok tt /\ 2 * cost_den c <= cost_num c dest -> x' <= x /\ t <= t' + g.
Proof. exact gift_purchase. Qed.
Print Assumptions C123_purchase_partial.

(** Refuted: that it makes no difference whether the sale succeeds without the gift.  One token, one
    unit in the pool: the sale fails, and a gift of 9 units makes it pay 10. *)
Theorem C123_failing_refuted : exists c n b a g x', linear_wf c /\ linear_validate c = Ok tt /\ is_u64 n /\ is_u64 b /\ is_u64 a /\
  0 <= g /\ is_u64 (a + g) /\ linear_swap c n b a BtoA = Non /\ linear_swap c n b (a + g) BtoA = Val (n, x') /\ g < x'.
Proof. exists (mk_linear 1 1000000 10 1), 1, 100, 1, 9, 10. vm_compute. intuition congruence. Qed.
Print Assumptions C123_failing_refuted.

(** Refuted: that a gift does not hurt the next seller.  15 units more in the pool, and the sale of the
    same three tokens pays 26 instead of 30. *)
Theorem C123_helps_refuted : exists c n b a g x x', linear_wf c /\ linear_validate c = Ok tt /\ is_u64 n /\ is_u64 b /\ is_u64 a /\
  0 <= g /\ is_u64 (a + g) /\ linear_swap c n b a BtoA = Val (n, x) /\ linear_swap c n b (a + g) BtoA = Val (n, x') /\ x' < x.
Proof. exists (mk_linear 1 1 7 2), 3, 100, 60, 15, 30, 26. vm_compute. intuition congruence. Qed.
Print Assumptions C123_helps_refuted.

(** Refuted: that a gift does not make the next purchase cheaper, although it raises the price.  The
    offer of 522 units gets 250 tokens, after a gift to the pool 500. *)
Theorem C123_cheaper_refuted : exists c s a g dest x x', linear_wf c /\ linear_validate c = Ok tt /\ is_u64 s /\ is_u64 a /\
  0 <= g /\ is_u64 (a + g) /\ is_u64 dest /\
  linear_swap c s a dest AtoB = Val (s, x) /\ linear_swap c s (a + g) dest AtoB = Val (s, x') /\ 2 * x <= x'.
Proof. exists (mk_linear 1 1000000000000 1 1), 522, 60, 902684, 1000000000000000000, 250, 500. vm_compute. intuition congruence. Qed.
Print Assumptions C123_cheaper_refuted.

(** Slope 1, starting price 3.5: gifts before a sale that does not and one that does exceed the
    position, before two sales, and before a purchase. *)
Example C123_case : let c := mk_linear 1 1 7 2 in
  linear_swap c 3 100 60 BtoA = Val (3, 30) /\ linear_swap c 3 100 (60 + 15) BtoA = Val (3, 26) /\
  linear_swap c 7 100 10 BtoA = Val (2, 10) /\ linear_swap c 7 100 (10 + 20) BtoA = Val (5, 30) /\
  linear_swap c 35 60 1000 AtoB = Val (35, 2) /\ linear_swap c (35 - 15) (60 + 15) 1000 AtoB = Val (20, 1) /\
  2 * cost_den c <= cost_num c 2 /\ linear_swap c 50 60 2 AtoB = Val (25, 2) /\ linear_swap c 35 (60 + 15) 2 AtoB = Val (27, 2).
Proof. vm_compute. intuition congruence. Qed.

Example C123_sales_case : let c := mk_linear 1 1 7 2 in
  sales c [3; 2] 60 100 15 105 /\ sales c [3; 2] 75 100 30 105.
Proof.
  split; (eapply one_sale; [vm_compute; intuition congruence | vm_compute; intuition congruence | vm_compute; reflexivity |]);
    (eapply one_sale; [vm_compute; intuition congruence | vm_compute; intuition congruence | vm_compute; reflexivity |]); apply no_sale.
Qed.
