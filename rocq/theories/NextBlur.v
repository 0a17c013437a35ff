(** Two linear pools in a row against one larger pool, for any starting price (C106). *)
From Verif Require Import Ints Tactics DfsPrecise Fees LinearCurve SwapCurve Spec LockSpec NextSpec DfsFacts LinearFacts
  SwapFacts LinearExact LinearProps LinearRound RedeemFacts BackFacts LinearBacked LockFacts NextFacts.

Lemma next_cost2 c D c2 x : continues c D c2 ->
  cost2 c (D * ONE + x) * cost_den c2 = cost2 c (D * ONE) * cost_den c2 + cost2 c2 x * cost_den c.
Proof.
  intros [H1 H2]. unfold cost2, cost_den.
  set (sn := slope_num c) in *. set (sd := slope_den c) in *. set (pn := price_num c) in *. set (pd := price_den c) in *.
  set (sn2 := slope_num c2) in *. set (sd2 := slope_den c2) in *. set (pn2 := price_num c2) in *. set (pd2 := price_den c2) in *.
  replace ((sn2 * pd2 * x * x + 2 * sd2 * pn2 * x * ONE) * (2 * sd * pd))
    with (2 * pd2 * pd * x * x * (sn2 * sd) + 4 * sd2 * x * ONE * (pn2 * (pd * sd))) by ring.
  rewrite <- H1, H2. ring.
Qed.

Lemma blur_pos c X g : linear_pos c -> blur c X g -> 0 <= g.
Proof.
  intros Hp (X0 & HB). destruct (Z.le_gt_cases 0 g) as [K | K]; [exact K | exfalso]. pose proof Hp as ((_ & _ & Y & _) & P1 & P2 & P3).
  unfold is_u64 in Y. assert (0 <= price_num c * slope_den c * 10 ^ 18) by (repeat apply Z.mul_nonneg_nonneg; lia).
  assert (0 <= slope_num c * price_den c * X) by (repeat apply Z.mul_nonneg_nonneg; lia).
  assert (0 < slope_num c * price_den c) by (apply Z.mul_pos_pos; lia).
  assert (slope_num c * price_den c * g <= 0) by (apply Z.mul_nonneg_nonpos; lia).
  assert (0 < 1414213566 * slope_den c * price_den c) by (repeat apply Z.mul_pos_pos; lia). lia.
Qed.

(** The blur of the curve that starts higher is the larger one. *)
Lemma next_blur c D c2 g : linear_pos c -> linear_pos c2 -> 0 <= D -> continues c D c2 -> blur c2 0 g -> blur c 0 g.
Proof.
  intros Hp Hp2 HD [H1 H2] (_ & HB). split; [lia |].
  destruct Hp as ((_ & _ & Y & _) & P1 & P2 & P3). destruct Hp2 as (_ & Q1 & Q2 & Q3). unfold is_u64 in Y.
  set (sn := slope_num c) in *. set (sd := slope_den c) in *. set (pn := price_num c) in *. set (pd := price_den c) in *.
  set (sn2 := slope_num c2) in *. set (sd2 := slope_den c2) in *. set (pn2 := price_num c2) in *. set (pd2 := price_den c2) in *.
  clearbody sn sd pn pd sn2 sd2 pn2 pd2.
  rewrite !Z.mul_0_r, !Z.add_0_r in *.
  assert (Q : 0 < sd2 * pd2 * sd) by (repeat apply Z.mul_pos_pos; lia).
  apply (Z.mul_le_mono_pos_l _ _ (sd2 * pd2 * sd) Q).
  assert (HB' : pn2 * sd2 * 10 ^ 18 * (sd * pd * sd) <= 2 ^ 30 * (sn2 * pd2 * g - 1414213566 * sd2 * pd2) * (sd * pd * sd)).
  { apply Z.mul_le_mono_nonneg_r; [repeat apply Z.mul_nonneg_nonneg; lia | exact HB]. }
  replace (pn2 * sd2 * 10 ^ 18 * (sd * pd * sd)) with (pn2 * (pd * sd) * (sd2 * sd * 10 ^ 18)) in HB' by ring. rewrite H2 in HB'.
  replace (2 ^ 30 * (sn2 * pd2 * g - 1414213566 * sd2 * pd2) * (sd * pd * sd))
    with (2 ^ 30 * (sn2 * sd * (pd2 * g) - 1414213566 * sd2 * pd2 * sd) * (pd * sd)) in HB' by ring. rewrite <- H1 in HB'.
  assert (0 <= sn * D * pd * pd2 * (sd2 * sd * 10 ^ 18)) by (repeat apply Z.mul_nonneg_nonneg; lia).
  replace (sd2 * pd2 * sd * (pn * sd * 10 ^ 18)) with (pn * sd * pd2 * (sd2 * sd * 10 ^ 18)) by ring.
  replace (sd2 * pd2 * sd * (2 ^ 30 * (sn * pd * g - 1414213566 * sd * pd)))
    with (2 ^ 30 * (sn * sd2 * (pd2 * g) - 1414213566 * sd2 * pd2 * sd) * (pd * sd)) by ring. lia.
Qed.

(** The same blur costs more further up. *)
Lemma blur_costs c x y g : linear_pos c -> 0 <= x <= y -> 0 <= g -> cost2 c (x + g) + cost2 c y <= cost2 c (y + g) + cost2 c x.
Proof.
  intros (_ & P1 & P2 & P3) Hxy Hg. unfold cost2.
  assert (0 <= slope_num c * price_den c * (2 * g * (y - x))) by (repeat apply Z.mul_nonneg_nonneg; lia).
  lia.
Qed.

Lemma fresh_near c f s dest r g m : linear_wf c -> linear_validate c = Ok tt -> feeless f -> is_u64 s -> is_u64 dest ->
  blur c 0 g -> cost2 c (dest * ONE + g) <= cost2 c (dest * ONE) + m * cost2_den c ->
  curve_swap (LinearPrice c) s 0 dest AtoB f = Val r -> source_amount_swapped r < s ->
  destination_amount_swapped r = dest /\
  let A := source_amount_swapped r in
  2 * ONE * cost_num c dest < cost_den c * (ONE * (2 * A + 1) + 4) /\
  cost_den c * ONE * (2 * A - 1) <= 2 * ONE * cost_num c dest + cost_den c * (2 * m * ONE + 1).
Proof.
  intros Hc Hv Hf Us Ud HB Hm H Hd. pose proof (RedeemFacts.validated_pos c Hc Hv) as Hp.
  apply feeless_swap in H; [| assumption | assumption]. destruct H as (H & _). cbn [swap_without_fees] in H.
  assert (U0 : is_u64 0) by (split; vm_compute; discriminate).
  apply linear_swap_a_to_b in H; try assumption. destruct H as (_ & _ & _ & b0 & Hb0 & Hcase).
  destruct Hcase as [(E & _ & X) | (E & _)]; [| lia]. split; [exact E |].
  pose proof (b_up_bounds c 0 b0 Hp ltac:(lia) Hb0) as B0.
  pose proof (blur_above c 0 g 0 b0 0 Hp HB U0 Hb0 ltac:(lia) ltac:(rewrite cost2_0; lia)) as B1. rewrite Z.add_0_l in B1.
  destruct (sold_out_exact c 0 b0 dest (source_amount_swapped r) Hp ltac:(lia) ltac:(unfold is_u64 in Ud; lia) X) as [L U].
  rewrite !Z.add_0_l in L, U. cbv zeta. pose proof ONE_pos as HO.
  assert (HD0 : 0 <= dest * ONE) by (unfold is_u64 in Ud; apply Z.mul_nonneg_nonneg; lia).
  pose proof (cost2_mono c (dest * ONE) (b0 + dest * ONE) Hp ltac:(lia)) as M1.
  pose proof (cost2_mono c (b0 + dest * ONE) (dest * ONE + g) Hp ltac:(lia)) as M2.
  rewrite cost2_whole in M1, Hm. rewrite cost2_den_eq in Hm.
  assert (HP : price_den c <= cost_den c).
  { destruct Hp as (_ & P1 & P2 & P3). unfold cost_den. nia. }
  set (K := cost_num c dest) in *. set (d := cost_den c) in *. set (A := source_amount_swapped r) in *.
  set (T := cost2 c (b0 + dest * ONE)) in *. set (T' := cost2 c (dest * ONE + g)) in *. clearbody T T'. clearbody K d A.
  clear X Hb0 HB B0 B1 HD0. set (O := ONE) in *. clearbody O.
  split.
  - apply (Z.mul_lt_mono_pos_l O); [exact HO |]. lia.
  - apply (Z.mul_le_mono_pos_l _ _ O); [exact HO |].
    assert (price_den c * O <= d * O) by (apply Z.mul_le_mono_nonneg_r; lia). lia.
Qed.

Lemma next_near c c2 f D D2 g m s1 s2 s r1 r2 r :
  linear_wf c -> linear_validate c = Ok tt -> linear_wf c2 -> linear_validate c2 = Ok tt -> feeless f ->
  continues c D c2 -> is_u64 D -> is_u64 D2 -> is_u64 (D + D2) -> is_u64 s1 -> is_u64 s2 -> is_u64 s ->
  blur c2 0 g -> cost2 c ((D + D2) * ONE + g) <= cost2 c ((D + D2) * ONE) + m * cost2_den c ->
  curve_swap (LinearPrice c) s1 0 D AtoB f = Val r1 -> source_amount_swapped r1 < s1 ->
  curve_swap (LinearPrice c2) s2 0 D2 AtoB f = Val r2 -> source_amount_swapped r2 < s2 ->
  curve_swap (LinearPrice c) s 0 (D + D2) AtoB f = Val r -> source_amount_swapped r < s ->
  destination_amount_swapped r1 + destination_amount_swapped r2 = destination_amount_swapped r /\
  - (1 + m) <= source_amount_swapped r1 + source_amount_swapped r2 - source_amount_swapped r <= 1 + 2 * m.
Proof.
  intros Hc Hv Hc2 Hv2 Hf HN U1 U2 U Us1 Us2 Us HB2 Hm H1 L1 H2 L2 H L.
  pose proof (RedeemFacts.validated_pos c Hc Hv) as Hp. pose proof (RedeemFacts.validated_pos c2 Hc2 Hv2) as Hp2.
  pose proof (blur_pos c2 0 g Hp2 HB2) as G0. pose proof ONE_pos as HO.
  assert (D0 : 0 <= D) by (unfold is_u64 in U1; lia). assert (D02 : 0 <= D2) by (unfold is_u64 in U2; lia).
  pose proof (next_blur c D c2 g Hp Hp2 D0 HN HB2) as HB.
  assert (Hd : 0 < cost_den c).
  { destruct Hp as (_ & P1 & P2 & P3). unfold cost_den. repeat apply Z.mul_pos_pos; lia. }
  assert (Hd2 : 0 < cost_den c2).
  { destruct Hp2 as (_ & P1 & P2 & P3). unfold cost_den. repeat apply Z.mul_pos_pos; lia. }
  assert (Z1 : 0 <= D * ONE) by (apply Z.mul_nonneg_nonneg; lia).
  assert (Z2 : D * ONE <= (D + D2) * ONE) by (apply Z.mul_le_mono_nonneg_r; lia).
  pose proof (blur_costs c (D * ONE) ((D + D2) * ONE) g Hp (conj Z1 Z2) G0) as M1.
  assert (M2 : cost2 c2 (D2 * ONE + g) <= cost2 c2 (D2 * ONE) + m * cost2_den c2).
  { pose proof (next_cost2 c D c2 (D2 * ONE + g) HN) as N1. pose proof (next_cost2 c D c2 (D2 * ONE) HN) as N2.
    replace (D * ONE + (D2 * ONE + g)) with ((D + D2) * ONE + g) in N1 by ring.
    replace (D * ONE + D2 * ONE) with ((D + D2) * ONE) in N2 by ring.
    apply (Z.mul_le_mono_pos_r _ _ (cost_den c) Hd).
    assert (Hm' : cost2 c ((D + D2) * ONE + g) * cost_den c2 <= (cost2 c ((D + D2) * ONE) + m * cost2_den c) * cost_den c2)
      by (apply Z.mul_le_mono_nonneg_r; lia).
    rewrite cost2_den_eq in *. lia. }
  destruct (fresh_near _ _ _ _ _ g m Hc Hv Hf Us1 U1 HB ltac:(lia) H1 L1) as (E1 & X1 & Y1).
  destruct (fresh_near _ _ _ _ _ g m Hc2 Hv2 Hf Us2 U2 HB2 M2 H2 L2) as (E2 & X2 & Y2).
  destruct (fresh_near _ _ _ _ _ g m Hc Hv Hf Us U HB Hm H L) as (E & X & Y).
  split; [lia |]. pose proof (next_cost c D c2 D2 HN) as HC.
  clear E1 E2 E L1 L2 L H1 H2 H Hm M1 M2 HB HB2 HN Z1 Z2.
  set (d := cost_den c) in *. set (d2 := cost_den c2) in *.
  set (K1 := cost_num c D) in *. set (K2 := cost_num c2 D2) in *. set (K := cost_num c (D + D2)) in *.
  set (A1 := source_amount_swapped r1) in *. set (A2 := source_amount_swapped r2) in *. set (A := source_amount_swapped r) in *.
  clearbody d d2 K1 K2 K A1 A2 A.
  assert (Q : 0 < d * d2) by (apply Z.mul_pos_pos; assumption).
  assert (X1' : 2 * ONE * (K1 * d2) < d * d2 * (ONE * (2 * A1 + 1) + 4)).
  { apply (Z.mul_lt_mono_pos_r d2) in X1; [lia | assumption]. }
  assert (X' : 2 * ONE * (K * d2) < d * d2 * (ONE * (2 * A + 1) + 4)).
  { apply (Z.mul_lt_mono_pos_r d2) in X; [lia | assumption]. }
  assert (X2' : 2 * ONE * (K2 * d) < d * d2 * (ONE * (2 * A2 + 1) + 4)).
  { apply (Z.mul_lt_mono_pos_r d) in X2; [lia | assumption]. }
  assert (Y1' : d * d2 * (ONE * (2 * A1 - 1) - 1 - 2 * m * ONE) <= 2 * ONE * (K1 * d2)).
  { apply (Z.mul_le_mono_pos_r _ _ d2) in Y1; [lia | assumption]. }
  assert (Y' : d * d2 * (ONE * (2 * A - 1) - 1 - 2 * m * ONE) <= 2 * ONE * (K * d2)).
  { apply (Z.mul_le_mono_pos_r _ _ d2) in Y; [lia | assumption]. }
  assert (Y2' : d * d2 * (ONE * (2 * A2 - 1) - 1 - 2 * m * ONE) <= 2 * ONE * (K2 * d)).
  { apply (Z.mul_le_mono_pos_r _ _ d) in Y2; [lia | assumption]. }
  rewrite HC in X', Y'. set (u := K1 * d2) in *. set (v := K2 * d) in *. set (q := d * d2) in *. clearbody u v q.
  split.
  - assert (H : q * (ONE * (2 * A - 1) - 1 - 2 * m * ONE) < q * (ONE * (2 * A1 + 1) + 4 + (ONE * (2 * A2 + 1) + 4))) by lia.
    apply Z.mul_lt_mono_pos_l in H; [| exact Q]. unfold ONE in *. lia.
  - assert (H : q * (ONE * (2 * A1 - 1) - 1 - 2 * m * ONE + (ONE * (2 * A2 - 1) - 1 - 2 * m * ONE)) < q * (ONE * (2 * A + 1) + 4)) by lia.
    apply Z.mul_lt_mono_pos_l in H; [| exact Q]. unfold ONE in *. lia.
Qed.

(** Positions of fresh pools off by some tokens. *)
Lemma next_apart : exists c c2 D D2 s1 s2 s r1 r2 r,
  linear_wf c /\ linear_validate c = Ok tt /\ linear_wf c2 /\ linear_validate c2 = Ok tt /\
  continues c D c2 /\ is_u64 D /\ is_u64 D2 /\ is_u64 (D + D2) /\ is_u64 s1 /\ is_u64 s2 /\ is_u64 s /\
  curve_swap (LinearPrice c) s1 0 D AtoB no_fees = Val r1 /\ source_amount_swapped r1 < s1 /\
  curve_swap (LinearPrice c2) s2 0 D2 AtoB no_fees = Val r2 /\ source_amount_swapped r2 < s2 /\
  curve_swap (LinearPrice c) s 0 (D + D2) AtoB no_fees = Val r /\ source_amount_swapped r < s /\
  source_amount_swapped r1 + source_amount_swapped r2 = source_amount_swapped r + 3183073.
Proof.
  exists (mk_linear 1 (10 ^ 6) 99999 1), (mk_linear 1 (10 ^ 6) 100999 1), (10 ^ 9), (10 ^ 9), (2 ^ 63), (2 ^ 63), (2 ^ 63),
    (mk_swap_result 100499000258557 0 100499000258557 (10 ^ 9) 0 0), (mk_swap_result 101499003185633 0 101499003185633 (10 ^ 9) 0 0),
    (mk_swap_result 201998000261117 0 201998000261117 (2 * 10 ^ 9) 0 0).
  vm_compute. intuition congruence.
Qed.
