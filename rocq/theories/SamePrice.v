(** Sales of the same number of tokens from the same reserve (C11). *)
From Verif Require Import Ints Tactics DfsPrecise Fees LinearCurve SwapCurve Codec Token Processor Api History Spec DfsFacts LinearFacts
  SwapFacts LinearExact LinearProps LinearRound LinearHistory LinearBacked LedgerSpec TraceSpec RoundSpec BackFacts
  RedeemFacts OfferFacts DriftFacts LockSpec LockFacts TokenFacts EffectFacts VaultFacts HistoryFacts LedgerLinear DriftLedger.

(** One offer fits the position and the other exceeds it: at most the price of the first token
    of the curve and less than a unit apart. *)
Lemma same_tokens c f ss ss' a n n' r r' : linear_wf c -> feeless f ->
  is_u64 a -> is_u64 ss -> is_u64 ss' -> is_u64 n -> is_u64 n' ->
  curve_swap (LinearPrice c) n ss a BtoA f = Val r -> curve_swap (LinearPrice c) n' ss' a BtoA f = Val r' ->
  source_amount_swapped r = source_amount_swapped r' ->
  (destination_amount_swapped r' - destination_amount_swapped r - 1) * cost_den c < cost_num c 1.
Proof.
  intros Hc Hf Ha Hss Hss' Hn Hn' H H' Heq. pose proof ONE_pos as HO.
  assert (Hpos : linear_pos c /\ exists b0, b_up c a = Val b0).
  { pose proof H as Q. apply feeless_swap in Q; try assumption. destruct Q as (Q & _). cbn [swap_without_fees] in Q.
    apply linear_swap_b_to_a in Q; try assumption. destruct Q as (Hp & _ & _ & b0 & Hb & _). split; [exact Hp | exists b0; exact Hb]. }
  destruct Hpos as (Hp & b0 & Hb).
  assert (C0 : 0 < cost_den c) by (destruct Hp as (_ & P1 & P2 & P3); unfold cost_den; repeat apply Z.mul_pos_pos; lia).
  assert (C1 : 0 < cost_num c 1).
  { destruct Hp as ((_ & _ & Y & _) & P1 & P2 & P3). unfold is_u64 in Y. unfold cost_num.
    assert (0 < slope_num c * price_den c * 1 * 1) by (repeat apply Z.mul_pos_pos; lia).
    assert (0 <= 2 * slope_den c * price_num c * 1) by (repeat apply Z.mul_nonneg_nonneg; lia). lia. }
  assert (Hsame : (n * ONE <= b0 <-> n' * ONE <= b0) -> (destination_amount_swapped r' - destination_amount_swapped r - 1) * cost_den c < cost_num c 1).
  { intros K. pose proof (same_offer_kind_same_price c f ss ss' a n n' r r' b0 Hc Hf Ha Hss Hss' Hn Hn' H H' Hb K Heq) as E.
    rewrite E. replace (destination_amount_swapped r' - destination_amount_swapped r' - 1) with (-1) by ring. lia. }
  destruct (Z.le_gt_cases (n * ONE) b0) as [K | K]; destruct (Z.le_gt_cases (n' * ONE) b0) as [K' | K']; try (apply Hsame; lia).
  - destruct (sale_leaves c f n ss a b0 r Hc Hf Ha Hn Hss H Hb K) as (e & He & E & S & _ & L).
    destruct (oversell c f n' ss' a b0 r' Hc Hf Ha Hn' Hss' H' Hb K') as (E1 & _ & _ & B).
    assert (En : e <= 1).
    { destruct (Z.le_gt_cases e 1) as [Q | Q]; [exact Q | exfalso].
      assert (1 * ONE <= (e - 1) * ONE) by (apply Z.mul_le_mono_nonneg_r; lia). rewrite <- Heq, E in B. lia. }
    assert (Ep : 0 <= e).
    { destruct (Z.le_gt_cases 0 e) as [Q | Q]; [exact Q | exfalso].
      assert (e * ONE <= -1 * ONE) by (apply Z.mul_le_mono_nonneg_r; lia). lia. }
    assert (cost_num c e <= cost_num c 1).
    { destruct (Z.eq_dec e 1) as [-> | Q]; [lia |]. replace e with 0 by lia. unfold cost_num at 1. rewrite !Z.mul_0_r. lia. }
    rewrite E1. replace (a - destination_amount_swapped r) with (new_swap_destination_amount r) by lia. lia.
  - destruct (oversell c f n ss a b0 r Hc Hf Ha Hn Hss H Hb K) as (E1 & _).
    apply feeless_swap in H'; try assumption. destruct H' as (_ & _ & _ & D' & _). rewrite E1.
    assert ((destination_amount_swapped r' - a - 1) * cost_den c <= 0) by (apply Z.mul_nonpos_nonneg; lia). lia.
Qed.

Lemma same_tokens_ledger e k s c sg1 sg2 acc1 acc2 n n' m1 m2 w1 w2 w1' w2' : env_ok e -> reachable e w1 -> reachable e w2 ->
  pool_at w1 k s -> pool_at w2 k s -> st_curve s = LinearPrice c ->
  nth 0 acc1 0 = k -> nth 0 acc2 0 = k -> nth 4 acc1 0 <> st_token_a s -> nth 4 acc2 0 <> st_token_a s ->
  exec e sg1 w1 (Swap acc1 n m1) = Ok w1' -> exec e sg2 w2 (Swap acc2 n' m2) = Ok w2' ->
  balance w1 (st_token_a s) = balance w2 (st_token_a s) ->
  balance w1' (st_token_b s) - balance w1 (st_token_b s) = balance w2' (st_token_b s) - balance w2 (st_token_b s) ->
  (balance w1' (st_token_a s) - balance w2' (st_token_a s) - 1) * cost_den c < cost_num c 1.
Proof.
  intros He R1 R2 P1 P2 Hl K1 K2 D1 D2 X1 X2 L HT.
  pose proof (reachable_inv _ _ He R1) as I1. pose proof (reachable_inv _ _ He R2) as I2.
  pose proof (linear_config _ _ _ _ _ (proj2 I1 _ _ P1) Hl) as (Hf & _).
  pose proof (linear_valid _ _ _ _ _ (proj2 I1 _ _ P1) Hl) as (Hc & Hv).
  pose proof (swap_vaults_at _ _ _ _ _ _ _ _ I1 X1 ltac:(rewrite K1; exact P1)) as S1.
  pose proof (swap_vaults_at _ _ _ _ _ _ _ _ I2 X2 ltac:(rewrite K2; exact P2)) as S2.
  cbv zeta in S1, S2. apply Z.eqb_neq in D1, D2. rewrite D1 in S1. rewrite D2 in S2. rewrite Hl in S1, S2. cbn [side_a side_b] in S1, S2.
  destruct S1 as (r1 & q1 & Un & C1 & _ & _ & V1 & V1' & _). destruct S2 as (r2 & q2 & Un' & C2 & _ & _ & V2 & V2' & _).
  rewrite Hf in C1, C2.
  assert (U : forall w v, inv e w -> is_u64 (balance w v)) by (intros w v I; apply balance_u64; apply I).
  rewrite <- L in C2.
  pose proof (same_tokens c linear_fees _ _ _ n n' r1 r2 Hc linear_feeless (U _ _ I1) (U _ _ I1) (U _ _ I2) Un Un' C1 C2) as Q.
  apply (feeless_swap _ _ _ _ _ _ _ linear_feeless Un) in C1. apply (feeless_swap _ _ _ _ _ _ _ linear_feeless Un') in C2.
  destruct C1 as (_ & _ & _ & _ & M1 & N1 & _). destruct C2 as (_ & _ & _ & _ & M2 & N2 & _).
  rewrite V1, V2, N1, N2. rewrite V1', V2', M1, M2 in HT.
  replace (balance w1 (st_token_a s) - destination_amount_swapped r1 - (balance w1 (st_token_a s) - destination_amount_swapped r2) - 1)
    with (destination_amount_swapped r2 - destination_amount_swapped r1 - 1) by ring.
  apply Q. lia.
Qed.
