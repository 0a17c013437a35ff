(** Two linear pools in a row against one larger pool (C106). *)
From Verif Require Import Ints Tactics DfsPrecise Fees LinearCurve SwapCurve Spec DfsFacts LinearFacts
  SwapFacts LinearExact LinearProps LinearRound LinearHistory LinearBacked RedeemFacts OfferFacts NextSpec.

Lemma next_cost c D c2 x : continues c D c2 ->
  cost_num c (D + x) * cost_den c2 = cost_num c D * cost_den c2 + cost_num c2 x * cost_den c.
Proof.
  intros [H1 H2]. unfold cost_num, cost_den.
  set (sn := slope_num c) in *. set (sd := slope_den c) in *. set (pn := price_num c) in *. set (pd := price_den c) in *.
  set (sn2 := slope_num c2) in *. set (sd2 := slope_den c2) in *. set (pn2 := price_num c2) in *. set (pd2 := price_den c2) in *.
  replace ((sn2 * pd2 * x * x + 2 * sd2 * pn2 * x) * (2 * sd * pd))
    with (2 * pd2 * pd * x * x * (sn2 * sd) + 4 * sd2 * x * (pn2 * (pd * sd))) by ring.
  rewrite <- H1, H2. ring.
Qed.

(** A purchase from a fresh pool that does not use up the offer. *)
Lemma fresh_sold_out c f s dest r : linear_wf c -> linear_validate c = Ok tt -> feeless f -> is_u64 s -> is_u64 dest ->
  b_value_with_amt_a_locked c 0 true = Val 0 ->
  curve_swap (LinearPrice c) s 0 dest AtoB f = Val r -> source_amount_swapped r < s ->
  destination_amount_swapped r = dest /\
  let A := source_amount_swapped r in
  2 * ONE * cost_num c dest < cost_den c * (ONE * (2 * A + 1) + 4) /\
  cost_den c * ONE * (2 * A - 1) <= 2 * ONE * cost_num c dest + cost_den c.
Proof.
  intros Hc Hv Hf Us Ud Hb H Hd. pose proof (RedeemFacts.validated_pos c Hc Hv) as Hp.
  apply feeless_swap in H; [| assumption | assumption]. destruct H as (H & _). cbn [swap_without_fees] in H.
  assert (U0 : is_u64 0) by (split; vm_compute; discriminate).
  apply linear_swap_a_to_b in H; try assumption. destruct H as (_ & _ & _ & b0 & Hb0 & Hcase).
  unfold b_up in Hb0. change (0 * ONE) with 0 in Hb0. rewrite Hb in Hb0. injection Hb0 as <-.
  destruct Hcase as [(E & _ & X) | (E & _)]; [| lia]. split; [exact E |].
  destruct (sold_out_exact c 0 0 dest (source_amount_swapped r) Hp ltac:(lia) ltac:(unfold is_u64 in Ud; lia) X) as [L U].
  rewrite !Z.add_0_l in L, U. rewrite cost2_whole in L, U. cbv zeta.
  assert (HP : price_den c <= cost_den c).
  { destruct Hp as (_ & P1 & P2 & P3). unfold cost_den. nia. }
  set (K := cost_num c dest) in *. set (d := cost_den c) in *. set (A := source_amount_swapped r) in *. clearbody K d A.
  pose proof ONE_pos as HO. set (O := ONE) in *. clearbody O.
  split.
  - apply (Z.mul_lt_mono_pos_l O); [exact HO |]. lia.
  - apply (Z.mul_le_mono_pos_l _ _ O); [exact HO |].
    assert (price_den c * O <= d * O) by (apply Z.mul_le_mono_nonneg_r; lia). lia.
Qed.

Lemma next_sold_out c c2 f D D2 s1 s2 s r1 r2 r :
  linear_wf c -> linear_validate c = Ok tt -> linear_wf c2 -> linear_validate c2 = Ok tt -> feeless f ->
  continues c D c2 -> is_u64 D -> is_u64 D2 -> is_u64 (D + D2) -> is_u64 s1 -> is_u64 s2 -> is_u64 s ->
  b_value_with_amt_a_locked c 0 true = Val 0 -> b_value_with_amt_a_locked c2 0 true = Val 0 ->
  curve_swap (LinearPrice c) s1 0 D AtoB f = Val r1 -> source_amount_swapped r1 < s1 ->
  curve_swap (LinearPrice c2) s2 0 D2 AtoB f = Val r2 -> source_amount_swapped r2 < s2 ->
  curve_swap (LinearPrice c) s 0 (D + D2) AtoB f = Val r -> source_amount_swapped r < s ->
  destination_amount_swapped r1 + destination_amount_swapped r2 = destination_amount_swapped r /\
  -1 <= source_amount_swapped r1 + source_amount_swapped r2 - source_amount_swapped r <= 1.
Proof.
  intros Hc Hv Hc2 Hv2 Hf HN U1 U2 U Us1 Us2 Us Hb Hb2 H1 L1 H2 L2 H L.
  destruct (fresh_sold_out _ _ _ _ _ Hc Hv Hf Us1 U1 Hb H1 L1) as (E1 & X1 & Y1).
  destruct (fresh_sold_out _ _ _ _ _ Hc2 Hv2 Hf Us2 U2 Hb2 H2 L2) as (E2 & X2 & Y2).
  destruct (fresh_sold_out _ _ _ _ _ Hc Hv Hf Us U Hb H L) as (E & X & Y).
  split; [lia |]. clear E1 E2 E L1 L2 L H1 H2 H.
  pose proof (next_cost c D c2 D2 HN) as HC.
  assert (Hd : 0 < cost_den c).
  { destruct (RedeemFacts.validated_pos c Hc Hv) as (_ & P1 & P2 & P3). unfold cost_den. nia. }
  assert (Hd2 : 0 < cost_den c2).
  { destruct (RedeemFacts.validated_pos c2 Hc2 Hv2) as (_ & P1 & P2 & P3). unfold cost_den. nia. }
  set (d := cost_den c) in *. set (d2 := cost_den c2) in *.
  set (K1 := cost_num c D) in *. set (K2 := cost_num c2 D2) in *. set (K := cost_num c (D + D2)) in *.
  set (A1 := source_amount_swapped r1) in *. set (A2 := source_amount_swapped r2) in *. set (A := source_amount_swapped r) in *.
  clearbody d d2 K1 K2 K A1 A2 A.
  assert (Q : 0 < d * d2) by (apply Z.mul_pos_pos; assumption).
  assert (X1' : 2 * ONE * (K1 * d2) < d * d2 * (ONE * (2 * A1 + 1) + 4)).
  { replace (2 * ONE * (K1 * d2)) with (2 * ONE * K1 * d2) by ring.
    replace (d * d2 * (ONE * (2 * A1 + 1) + 4)) with (d * (ONE * (2 * A1 + 1) + 4) * d2) by ring.
    apply Z.mul_lt_mono_pos_r; assumption. }
  assert (X' : 2 * ONE * (K * d2) < d * d2 * (ONE * (2 * A + 1) + 4)).
  { replace (2 * ONE * (K * d2)) with (2 * ONE * K * d2) by ring.
    replace (d * d2 * (ONE * (2 * A + 1) + 4)) with (d * (ONE * (2 * A + 1) + 4) * d2) by ring.
    apply Z.mul_lt_mono_pos_r; assumption. }
  assert (X2' : 2 * ONE * (K2 * d) < d * d2 * (ONE * (2 * A2 + 1) + 4)).
  { replace (2 * ONE * (K2 * d)) with (2 * ONE * K2 * d) by ring.
    replace (d * d2 * (ONE * (2 * A2 + 1) + 4)) with (d2 * (ONE * (2 * A2 + 1) + 4) * d) by ring.
    apply Z.mul_lt_mono_pos_r; assumption. }
  assert (Y1' : d * d2 * (ONE * (2 * A1 - 1) - 1) <= 2 * ONE * (K1 * d2)).
  { assert ((d * ONE * (2 * A1 - 1)) * d2 <= (2 * ONE * K1 + d) * d2) by (apply Z.mul_le_mono_nonneg_r; lia). lia. }
  assert (Y' : d * d2 * (ONE * (2 * A - 1) - 1) <= 2 * ONE * (K * d2)).
  { assert ((d * ONE * (2 * A - 1)) * d2 <= (2 * ONE * K + d) * d2) by (apply Z.mul_le_mono_nonneg_r; lia). lia. }
  assert (Y2' : d * d2 * (ONE * (2 * A2 - 1) - 1) <= 2 * ONE * (K2 * d)).
  { assert ((d2 * ONE * (2 * A2 - 1)) * d <= (2 * ONE * K2 + d2) * d) by (apply Z.mul_le_mono_nonneg_r; lia). lia. }
  rewrite HC in X', Y'. set (u := K1 * d2) in *. set (v := K2 * d) in *. set (q := d * d2) in *. clearbody u v q.
  split.
  - assert (q * (ONE * (2 * A - 1) - 1) < q * (ONE * (2 * A1 + 1) + 4 + (ONE * (2 * A2 + 1) + 4))) by lia.
    apply Z.mul_lt_mono_pos_l in H; [| exact Q]. unfold ONE in *. lia.
  - assert (q * (ONE * (2 * A1 - 1) - 1 + (ONE * (2 * A2 - 1) - 1)) < q * (ONE * (2 * A + 1) + 4)) by lia.
    apply Z.mul_lt_mono_pos_l in H; [| exact Q]. unfold ONE in *. lia.
Qed.

(** The end price need not be a fraction of two u64 numbers. *)
Lemma no_next : exists c D, linear_wf c /\ linear_validate c = Ok tt /\ is_u64 D /\
  forall c2, linear_wf c2 -> linear_validate c2 = Ok tt -> ~ continues c D c2.
Proof.
  exists (mk_linear 1 3 1 u64_max), 5.
  split; [vm_compute; intuition congruence |]. split; [vm_compute; reflexivity |]. split; [split; vm_compute; discriminate |].
  intros c2 Hc2 Hv2 [_ H]. destruct (RedeemFacts.validated_pos c2 Hc2 Hv2) as (_ & _ & _ & P3).
  destruct Hc2 as (_ & _ & Hp & Hq). unfold is_u64, u64_max in Hp, Hq.
  cbn [slope_num slope_den price_num price_den] in H. unfold u64_max in H.
  set (x := price_num c2) in *. set (y := price_den c2) in *. clearbody x y.
  change ((2 ^ 64 - 1) * 3) with (3 * 18446744073709551615) in H.
  assert (H' : x * 18446744073709551615 = 30744573456182586026 * y) by lia.
  assert (G : Z.gcd 18446744073709551615 30744573456182586026 = 1) by (vm_compute; reflexivity).
  assert (Dv : (18446744073709551615 | y)).
  { apply (Z.gauss _ 30744573456182586026); [exists x; lia | exact G]. }
  destruct Dv as (k & Hk). subst y. nia.
Qed.

Lemma next_exists c D : linear_wf c -> linear_validate c = Ok tt -> 0 <= D ->
  price_num c * slope_den c + slope_num c * D * price_den c <= u64_max -> price_den c * slope_den c <= u64_max ->
  let c2 := mk_linear (slope_num c) (slope_den c) (price_num c * slope_den c + slope_num c * D * price_den c) (price_den c * slope_den c) in
  linear_wf c2 /\ linear_validate c2 = Ok tt /\ continues c D c2.
Proof.
  intros Hc Hv HD L1 L2. cbv zeta. pose proof (slope_least c Hc Hv) as HT.
  pose proof (RedeemFacts.validated_pos c Hc Hv) as (_ & P1 & P2 & P3).
  assert (W : linear_wf (mk_linear (slope_num c) (slope_den c) (price_num c * slope_den c + slope_num c * D * price_den c) (price_den c * slope_den c))).
  { destruct Hc as (W1 & W2 & W3 & W4). unfold linear_wf. cbn [slope_num slope_den price_num price_den]. unfold is_u64 in *.
    assert (0 <= price_num c * slope_den c) by (apply Z.mul_nonneg_nonneg; lia).
    assert (0 <= slope_num c * D * price_den c) by (repeat apply Z.mul_nonneg_nonneg; lia).
    assert (0 <= price_den c * slope_den c) by (apply Z.mul_nonneg_nonneg; lia). repeat split; lia. }
  split; [exact W |]. split.
  - apply linear_validate_iff; [exact W |]. cbn [slope_num slope_den price_num price_den].
    change (10 ^ 18) with ONE. repeat split; try lia.
  - split; cbn [slope_num slope_den price_num price_den]; ring.
Qed.
