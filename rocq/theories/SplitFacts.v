(** Splitting a sale on the linear curve (C73). *)
From Verif Require Import Ints Tactics DfsPrecise Fees LinearCurve SwapCurve Spec DfsFacts LinearFacts
  SwapFacts LinearExact LinearProps LinearRound LinearHistory LinearBacked.

(** What the pool keeps in a sale is a function of the end position only. *)
Lemma split_sale_gen c f n1 n2 ss a r1 r2 r :
  linear_wf c -> feeless f -> is_u64 a -> is_u64 ss -> is_u64 n1 -> is_u64 n2 -> is_u64 (n1 + n2) ->
  is_u64 (new_swap_source_amount r1) ->
  (forall e a1 b, linear_pos c -> 0 <= e -> 0 <= a1 <= u64_max -> area c (e * ONE) <= a1 * ONE -> b_up c a1 = Val b -> (e - 1) * ONE < b) ->
  curve_swap (LinearPrice c) n1 ss a BtoA f = Val r1 ->
  curve_swap (LinearPrice c) n2 (new_swap_source_amount r1) (new_swap_destination_amount r1) BtoA f = Val r2 ->
  curve_swap (LinearPrice c) (n1 + n2) ss a BtoA f = Val r ->
  destination_amount_swapped r1 + destination_amount_swapped r2 <= destination_amount_swapped r.
Proof.
  intros Hc Hf Ha Hss Hn1 Hn2 Hn12 Hs1 Hcov H1 H2 H.
  apply feeless_swap in H1; try assumption. apply feeless_swap in H2; try assumption.
  apply feeless_swap in H; try assumption.
  destruct H1 as (H1 & _ & _ & HD1 & N1 & M1 & _). destruct H2 as (H2 & _ & _ & HD2 & N2 & M2 & _).
  destruct H as (H & _ & _ & HD & _). cbn [swap_without_fees] in *.
  pose proof (linear_swap_bounds _ _ _ _ _ _ _ Hc Hn1 Hss Ha H1) as (_ & B1 & _).
  assert (Ha1 : is_u64 (new_swap_destination_amount r1)) by (unfold is_u64 in *; lia).
  pose proof (linear_swap_bounds _ _ _ _ _ _ _ Hc Hn2 Hs1 Ha1 H2) as (_ & B2 & _).
  apply linear_swap_b_to_a in H1; try assumption. apply linear_swap_b_to_a in H2; try assumption.
  apply linear_swap_b_to_a in H; try assumption.
  destruct H1 as (Hp & _ & _ & b0 & Hb0 & H1). destruct H as (_ & _ & _ & b0' & Hb0' & H).
  rewrite Hb0 in Hb0'. injection Hb0' as <-.
  destruct H as [(_ & _ & ->) | (G & _ & HA & HB & _ & E)]; [lia |].
  pose proof ONE_pos as HO. unfold is_u64 in *.
  destruct H1 as [(L1 & _) | (G1 & _ & HA1 & HB1 & _ & E1)]; [exfalso; nia |].
  destruct H2 as (_ & _ & _ & b1 & Hb1 & H2). rewrite M1 in *.
  set (e := end_position b0 (n1 + n2)) in *. set (e1 := end_position b0 n1) in *.
  assert (Ke : (e - 1) * ONE < b0 - (n1 + n2) * ONE <= e * ONE).
  { pose proof (cdivup_spec (b0 - (n1 + n2) * ONE) ONE HO). unfold e, end_position. lia. }
  assert (Ke1 : (e1 - 1) * ONE < b0 - n1 * ONE <= e1 * ONE).
  { pose proof (cdivup_spec (b0 - n1 * ONE) ONE HO). unfold e1, end_position. lia. }
  assert (Ee : e = e1 - n2).
  { assert ((e - 1) * ONE < (e1 - n2) * ONE) by lia. assert ((e1 - n2 - 1) * ONE < e * ONE) by lia.
    apply Z.mul_lt_mono_pos_r in H, H0; lia. }
  set (a1 := a - destination_amount_swapped r1) in *.
  assert (Hk1 : area c (e1 * ONE) <= a1 * ONE).
  { pose proof (div_bounds (a * ONE - area c (e1 * ONE)) ONE HO) as D. rewrite <- E1 in D. subst a1. lia. }
  assert (He0 : 0 <= e) by nia.
  assert (Hlow : (e1 - 1) * ONE < b1) by (apply (Hcov e1 a1 b1 Hp); try assumption; lia).
  destruct H2 as [(L2 & _) | (G2 & _ & HA2 & HB2 & _ & E2)].
  { (* the second sale is not oversized unless nothing is left of the position *)
    assert (e = 0) by nia.
    assert (area c (e * ONE) = 0).
    { rewrite H. unfold area. rewrite !Z.mul_0_l, !Z.mul_0_r. cbn [Z.add]. rewrite (Z.div_small HALF ONE) by (unfold HALF, ONE; lia).
      rewrite !Z.div_0_l; destruct Hp as (_ & ? & ? & ?); lia. }
    rewrite H0, Z.sub_0_r, Z.div_mul in E by lia. lia. }
  set (e2 := end_position b1 n2) in *.
  assert (Ke2 : (e2 - 1) * ONE < b1 - n2 * ONE <= e2 * ONE).
  { pose proof (cdivup_spec (b1 - n2 * ONE) ONE HO). unfold e2, end_position. lia. }
  assert (e <= e2).
  { assert ((e - 1) * ONE < e2 * ONE) by lia. apply Z.mul_lt_mono_pos_r in H; lia. }
  assert (Hmon : area c (e * ONE) <= area c (e2 * ONE)) by (apply area_mono; [exact Hp | nia]).
  pose proof (div_bounds (a1 * ONE - area c (e2 * ONE)) ONE HO) as D2. rewrite <- E2 in D2.
  rewrite E. apply Z.div_le_lower_bound; [exact HO |]. subst a1. lia.
Qed.

Lemma split_sale_decimal c f n1 n2 ss a r1 r2 r :
  linear_wf c -> feeless f -> decimal c -> is_u64 a -> is_u64 ss -> is_u64 n1 -> is_u64 n2 -> is_u64 (n1 + n2) ->
  is_u64 (new_swap_source_amount r1) ->
  curve_swap (LinearPrice c) n1 ss a BtoA f = Val r1 ->
  curve_swap (LinearPrice c) n2 (new_swap_source_amount r1) (new_swap_destination_amount r1) BtoA f = Val r2 ->
  curve_swap (LinearPrice c) (n1 + n2) ss a BtoA f = Val r ->
  destination_amount_swapped r1 + destination_amount_swapped r2 <= destination_amount_swapped r.
Proof.
  intros Hc Hf Hdec Ha Hss Hn1 Hn2 Hn12 Hs1. apply split_sale_gen; try assumption.
  intros e a1 b Hp He Ha1 Har Hb. pose proof ONE_pos as HO. unfold u64_max in Ha1.
  assert (e * ONE <= b).
  { apply (up_covers c a1 b (e * ONE) Hp Hdec ltac:(lia) Hb); [nia |].
    rewrite cost2_whole. unfold cost2_den. pose proof (area_dec c e Hp Hdec He) as X.
    assert (0 < cost_den c) by (unfold cost_den; destruct Hp as (_ & ? & ? & ?); apply Z.mul_pos_pos; lia).
    assert (cost_den c * area c (e * ONE) <= cost_den c * (a1 * ONE)) by (apply Z.mul_le_mono_nonneg_l; lia). nia. }
  lia.
Qed.

(** Curves with a slope of at least 10^-17 and a starting price of at least 1/5. *)
Lemma split_sale_dear c f n1 n2 ss a r1 r2 r :
  linear_wf c -> feeless f -> 10 * slope_den c <= slope_num c * ONE -> price_den c <= 5 * price_num c ->
  is_u64 a -> is_u64 ss -> is_u64 n1 -> is_u64 n2 -> is_u64 (n1 + n2) ->
  is_u64 (new_swap_source_amount r1) ->
  curve_swap (LinearPrice c) n1 ss a BtoA f = Val r1 ->
  curve_swap (LinearPrice c) n2 (new_swap_source_amount r1) (new_swap_destination_amount r1) BtoA f = Val r2 ->
  curve_swap (LinearPrice c) (n1 + n2) ss a BtoA f = Val r ->
  destination_amount_swapped r1 + destination_amount_swapped r2 <= destination_amount_swapped r.
Proof.
  intros Hc Hf Hs10 Hdear Ha Hss Hn1 Hn2 Hn12 Hs1. apply split_sale_gen; try assumption.
  intros e a1 b Hp He Ha1 Har Hb. pose proof ONE_pos as HO. unfold u64_max in Ha1.
  destruct (Z.lt_ge_cases ((e - 1) * ONE) b) as [L | L]; [exact L |]. exfalso.
  pose proof (b_up_bounds c a1 b Hp ltac:(lia) Hb) as Bb.
  pose proof (up_cost c a1 b Hp ltac:(lia) Hs10 Hb) as C1.
  assert (He1 : 1 <= e) by nia.
  destruct (area_exact c (e * ONE) Hp ltac:(nia)) as [_ X].
  assert (Cm : cost2 c (b + 1) <= cost2 c ((e - 1) * ONE + 1)) by (apply cost2_mono; [exact Hp | lia]).
  pose proof (cost2_slope c ((e - 1) * ONE + 1) (e * ONE) Hp ltac:(nia)) as [Sl _].
  replace (e * ONE - ((e - 1) * ONE + 1)) with (ONE - 1) in Sl by ring.
  assert (Pr : price_num c * slope_den c * ONE <= price_num_at c ((e - 1) * ONE + 1)).
  { unfold price_num_at. destruct Hp as (_ & P1 & P2 & P3).
    assert (0 <= slope_num c * price_den c * ((e - 1) * ONE + 1)) by (repeat apply Z.mul_nonneg_nonneg; nia). lia. }
  destruct Hp as (_ & P1 & P2 & P3). unfold cost2_den, cost_den in *.
  set (k := slope_den c * price_den c) in *. assert (Hk : 0 < k) by (apply Z.mul_pos_pos; lia).
  assert (Kp : k <= 5 * (price_num c * slope_den c)) by (subst k; nia).
  set (y := price_num c * slope_den c) in *.
  assert (S2 : 2 * (y * ONE) * (ONE - 1) <= 2 * price_num_at c ((e - 1) * ONE + 1) * (ONE - 1)).
  { apply Z.mul_le_mono_nonneg_r; [unfold ONE; lia | lia]. }
  assert (X' : cost2 c (e * ONE) < 2 * ONE * k * (a1 * ONE + 2)).
  { eapply Z.lt_le_trans; [exact X |].
    replace (2 * ONE * slope_den c * price_den c * (area c (e * ONE) + 2)) with (2 * ONE * k * (area c (e * ONE) + 2)) by (subst k; ring).
    apply Z.mul_le_mono_nonneg_l; [nia | lia]. }
  replace (2 * slope_den c * price_den c * ONE * ONE) with (2 * ONE * ONE * k) in C1 by (subst k; ring).
  replace (10 * (2 * slope_den c * price_den c * ONE * ONE)) with (20 * ONE * ONE * k) in C1 by (subst k; ring).
  clearbody k y. unfold ONE in *. lia.
Qed.

Lemma split_sale_profit : exists c n1 n2 ss a r1 r2 r,
  linear_wf c /\ linear_validate c = Ok tt /\ is_u64 a /\ is_u64 ss /\ is_u64 (n1 + n2) /\
  curve_swap (LinearPrice c) n1 ss a BtoA no_fees = Val r1 /\
  curve_swap (LinearPrice c) n2 (new_swap_source_amount r1) (new_swap_destination_amount r1) BtoA no_fees = Val r2 /\
  curve_swap (LinearPrice c) (n1 + n2) ss a BtoA no_fees = Val r /\
  source_amount_swapped r1 + source_amount_swapped r2 = source_amount_swapped r /\
  destination_amount_swapped r < destination_amount_swapped r1 + destination_amount_swapped r2.
Proof.
  exists (mk_linear 3 2669539526331634176 62408 505452228), 24199, 102062, 1000, 21.
  eexists _, _, _. repeat match goal with |- _ /\ _ => split end.
  6: vm_compute; reflexivity. 6: vm_compute; reflexivity. 6: vm_compute; reflexivity.
  all: vm_compute; repeat split; congruence.
Qed.
