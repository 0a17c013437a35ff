(** Round trips on the linear curve (C06). *)
From Verif Require Import Ints Tactics DfsPrecise Fees LinearCurve SwapCurve Spec DfsFacts CurveFacts
  LinearFacts LinearExact SwapFacts FixedFacts LinearProps.

(** The cost of one more unit of 10^-18 tokens is the sum of the prices at its ends. *)
Lemma cost2_step c x : cost2 c (x + 1) - cost2 c x = 2 * price_num_at c x + slope_num c * price_den c.
Proof. unfold cost2, price_num_at. ring. Qed.

(** Denominator of [cost2]. *)
Definition cost2_den (c : linear_curve) : Z := cost_den c * ONE * ONE.

Lemma cost2_den_pos c : linear_pos c -> 0 < cost2_den c.
Proof.
  intros (_ & _ & P2 & P3). unfold cost2_den, cost_den. pose proof ONE_pos.
  repeat apply Z.mul_pos_pos; lia.
Qed.

Lemma b_up_root c a b : linear_pos c -> 0 <= a < 2 ^ 65 -> b_up c a = Val b ->
  exists r, b = b_of_root c r /\ 0 <= r < 2 ^ 126 /\ disc c a * ONE <= r * r /\
    (disc c a = 0 -> r = 0) /\
    (0 < disc c a -> 1 <= r /\
      (r - 1) * (2 ^ 31 - 1) * ((r - 1) * (2 ^ 31 - 1)) < disc c a * ONE * (2 ^ 31 * 2 ^ 31)).
Proof.
  intros Hc Ha H. apply b_value_val in H; try assumption. destruct H as (r & R & -> & Zr & _).
  assert (D0 := disc_bounds c a Hc Ha).
  assert (U0 : is_u256 (disc c a)) by (unfold is_u256, u256_max; lia).
  destruct (dfs_sqrt_up_spec _ _ U0 R) as (_ & S0 & S1 & S2).
  exists r. auto.
Qed.

Lemma up_cost c a b : linear_pos c -> 0 <= a < 2 ^ 65 -> 10 * slope_den c <= slope_num c * ONE ->
  b_up c a = Val b -> 10 * cost2_den c * a - cost2_den c < 10 * cost2 c (b + 1).
Proof.
  intros Hc Ha Hs H. destruct (b_up_root c a b Hc Ha H) as (r & -> & Zr & S0 & _).
  pose proof (up_position c a r Hc ltac:(lia) ltac:(lia) S0) as X.
  destruct Hc as (_ & P1 & P2 & P3). unfold cost2_den, cost_den. pose proof ONE_pos as HO.
  set (sn := slope_num c) in *. set (sd := slope_den c) in *. set (pd := price_den c) in *.
  set (C := cost2 c (b_of_root c r + 1)) in *. clearbody C. set (O := ONE) in *. clearbody O.
  assert (HQ : 2 * O * pd * sd * (10 * sd) <= 2 * O * pd * sd * (sn * O)).
  { apply Z.mul_le_mono_nonneg_l; [repeat apply Z.mul_nonneg_nonneg; lia | exact Hs]. }
  apply (Z.mul_lt_mono_pos_l sn); [exact P1 |]. nia.
Qed.

(** Parameters for which every price stays below 1.2 * 10^17. *)
Definition moderate (c : linear_curve) : Prop :=
  price_num c <= 10 ^ 17 * price_den c /\ slope_num c <= 10 ^ 14 * slope_den c.

Lemma price_bound c a b x : linear_pos c -> moderate c -> 0 <= a <= u64_max -> b_up c a = Val b ->
  0 <= x <= b -> 25 * (cost2 c (x + 1) - cost2 c x) <= 3 * cost2_den c.
Proof.
  intros Hc (M1 & M2) Ha H Hx. unfold u64_max in Ha.
  destruct (b_up_root c a b Hc ltac:(lia) H) as (r & Eb & Zr & _ & S1 & S2).
  pose proof (disc_bounds c a Hc ltac:(lia)) as Db.
  rewrite cost2_step. unfold cost2_den, cost_den, price_num_at.
  pose proof (e_val_exact c Hc) as HE. pose proof (e_val_bounds c Hc) as HEb.
  assert (Hd : disc c a <= (10 ^ 34 + 2 * 10 ^ 14 * 2 ^ 64) * ONE).
  { unfold disc. destruct Hc as (Hwf & P1 & P2 & P3). destruct Hwf as (_ & _ & Pn & _). unfold is_u64 in Pn.
    pose proof ONE_pos as HO.
    assert (price_num c * price_num c * ONE / (price_den c * price_den c) <= 10 ^ 34 * ONE).
    { apply Z.div_le_upper_bound; [apply Z.mul_pos_pos; lia |].
      assert (price_num c * price_num c <= 10 ^ 17 * price_den c * (10 ^ 17 * price_den c)) by (apply Z.mul_le_mono_nonneg; lia).
      replace (price_den c * price_den c * (10 ^ 34 * ONE))
        with (10 ^ 17 * price_den c * (10 ^ 17 * price_den c) * ONE) by ring.
      apply Z.mul_le_mono_nonneg_r; lia. }
    assert (2 * slope_num c * a * ONE / slope_den c <= 2 * 10 ^ 14 * 2 ^ 64 * ONE).
    { apply Z.div_le_upper_bound; [lia |].
      replace (slope_den c * (2 * 10 ^ 14 * 2 ^ 64 * ONE)) with (2 * (10 ^ 14 * slope_den c) * 2 ^ 64 * ONE) by ring.
      apply Z.mul_le_mono_nonneg_r; [lia |]. apply Z.mul_le_mono_nonneg; lia. }
    lia. }
  assert (Hr : r <= 118 * 10 ^ 33).
  { destruct (Z.eq_dec (disc c a) 0) as [E | E]; [rewrite (S1 E); lia |].
    destruct (S2 ltac:(lia)) as [_ S3]. clear S1 S2.
    destruct (Z.le_gt_cases r (118 * 10 ^ 33)) as [| Hgt]; [assumption | exfalso].
    assert (118 * 10 ^ 33 * (2 ^ 31 - 1) * (118 * 10 ^ 33 * (2 ^ 31 - 1)) <=
            (r - 1) * (2 ^ 31 - 1) * ((r - 1) * (2 ^ 31 - 1))) by (apply Z.mul_le_mono_nonneg; lia).
    unfold ONE in *. lia. }
  destruct Hc as (Hwf & P1 & P2 & P3). destruct Hwf as (_ & _ & Pn & _). unfold is_u64 in Pn.
  set (sn := slope_num c) in *. set (sd := slope_den c) in *. set (pd := price_den c) in *.
  set (pn := price_num c) in *. set (e := e_val c) in *.
  assert (Hsp : 0 < sd * pd) by (apply Z.mul_pos_pos; lia).
  assert (HP : pn * sd * ONE + sn * pd * b <= (118 * 10 ^ 33 + 1) * (sd * pd)).
  { assert (sd * (pn * ONE) <= sd * ((e + 1) * pd)) by (apply Z.mul_le_mono_nonneg_l; lia).
    destruct (Z.le_gt_cases r e) as [Hle | Hgt].
    - assert (b = 0).
      { rewrite Eb. unfold b_of_root. rewrite Z.max_l by lia. apply Z.div_0_l; lia. }
      assert (pn * (sd * ONE) <= 10 ^ 17 * pd * (sd * ONE)).
      { apply Z.mul_le_mono_nonneg_r; [unfold ONE; lia | lia]. }
      subst b. rewrite H1. unfold ONE in *. lia.
    - assert (sn * b <= (r - e) * sd).
      { rewrite Eb. unfold b_of_root. rewrite Z.max_r by lia. fold sd sn e.
        pose proof (div_bounds ((r - e) * sd) sn P1). lia. }
      assert (pd * (sn * b) <= pd * ((r - e) * sd)) by (apply Z.mul_le_mono_nonneg_l; lia).
      assert ((r + 1) * (sd * pd) <= (118 * 10 ^ 33 + 1) * (sd * pd)) by (apply Z.mul_le_mono_nonneg_r; lia).
      nia. }
  assert (sn * pd * x <= sn * pd * b) by (apply Z.mul_le_mono_nonneg_l; [apply Z.mul_nonneg_nonneg; lia | lia]).
  assert (sn * pd <= 10 ^ 14 * (sd * pd)).
  { replace (10 ^ 14 * (sd * pd)) with (10 ^ 14 * sd * pd) by ring. apply Z.mul_le_mono_nonneg_r; lia. }
  replace (2 * sd * pd * ONE * ONE) with (2 * ONE * ONE * (sd * pd)) by ring.
  set (k := sd * pd) in *. unfold ONE in *. lia.
Qed.

Lemma cost2_convex c b x k : linear_pos c -> 0 <= k -> b <= x ->
  cost2 c b - cost2 c (b - k) <= cost2 c x - cost2 c (x - k).
Proof.
  intros (_ & P1 & P2 & P3) Hk Hb.
  assert (0 <= slope_num c * price_den c * k * (x - b)) by (repeat apply Z.mul_nonneg_nonneg; lia).
  unfold cost2. nia.
Qed.

(** A sale pays no more than [a1 - a0] if the position it ends at still costs about [a0]. *)
Lemma sale_pays_at_most c a0 a1 e : linear_pos c -> 0 <= e ->
  cost2_den c * (100 * a0 - 99) <= 100 * cost2 c (e * ONE) ->
  (a1 * ONE - area c (e * ONE)) / ONE <= a1 - a0.
Proof.
  intros Hc He H. pose proof ONE_pos as HO.
  assert (Hx : 0 <= e * ONE) by (apply Z.mul_nonneg_nonneg; lia).
  destruct (area_exact c (e * ONE) Hc Hx) as [_ X].
  destruct Hc as (_ & P1 & P2 & P3). unfold cost2_den, cost_den in H.
  set (k := slope_den c * price_den c) in *. assert (Hk : 0 < k) by (apply Z.mul_pos_pos; lia).
  set (ar := area c (e * ONE)) in *. set (C := cost2 c (e * ONE)) in *. clearbody ar C.
  assert (Hlt : 2 * ONE * k * (ONE * (100 * a0 - 99)) < 2 * ONE * k * (100 * (ar + 2))).
  { subst k. nia. }
  apply Z.mul_lt_mono_pos_l in Hlt; [| apply Z.mul_pos_pos; lia].
  apply Z.lt_succ_r. apply Z.div_lt_upper_bound; [exact HO |]. unfold ONE in *. lia.
Qed.

Lemma round_trip c f s a dest r1 r2 :
  linear_wf c -> feeless f -> 10 * slope_den c <= slope_num c * ONE -> moderate c ->
  is_u64 a -> is_u64 s -> is_u64 dest -> is_u64 (new_swap_source_amount r1) ->
  curve_swap (LinearPrice c) s a dest AtoB f = Val r1 ->
  curve_swap (LinearPrice c) (destination_amount_swapped r1) (new_swap_destination_amount r1)
    (new_swap_source_amount r1) BtoA f = Val r2 ->
  destination_amount_swapped r2 <= source_amount_swapped r1.
Proof.
  intros Hc Hf Hs10 Hm Ha Hs Hd Ha1 H1 H2.
  apply feeless_swap in H1; try assumption.
  destruct H1 as (H1 & _ & _ & HD1 & N1 & M1 & _). cbn [swap_without_fees] in H1.
  pose proof (linear_swap_bounds _ _ _ _ _ _ _ Hc Hs Ha Hd H1) as (B1 & B2 & _).
  apply linear_swap_a_to_b in H1; try assumption.
  destruct H1 as (Hp & _ & _ & b0 & Hb0 & H1).
  assert (Hn : is_u64 (destination_amount_swapped r1)) by (unfold is_u64 in *; lia).
  assert (Hss : is_u64 (new_swap_destination_amount r1)) by (unfold is_u64 in *; lia).
  apply feeless_swap in H2; try assumption.
  destruct H2 as (H2 & _ & _ & HD2 & _). cbn [swap_without_fees] in H2.
  apply linear_swap_b_to_a in H2; try assumption.
  destruct H2 as (_ & _ & _ & u1 & Hu1 & H2).
  set (a1 := new_swap_source_amount r1) in *. set (n := destination_amount_swapped r1) in *.
  set (pay := destination_amount_swapped r2) in *. set (ch := source_amount_swapped r1) in *.
  unfold is_u64, u64_max in *. pose proof ONE_pos as HO.
  pose proof (cost2_den_pos c Hp) as HR.
  pose proof (b_up_bounds c a b0 Hp ltac:(lia) Hb0) as Zb0.
  pose proof (b_up_bounds c a1 u1 Hp ltac:(lia) Hu1) as Zu1.
  pose proof (up_cost c a b0 Hp ltac:(lia) Hs10 Hb0) as C0.
  pose proof (up_cost c a1 u1 Hp ltac:(lia) Hs10 Hu1) as C1.
  assert (Hpb := fun x => price_bound c a b0 x Hp Hm ltac:(unfold u64_max; lia) Hb0).
  assert (Hst : forall e, 0 <= e -> b0 <= e * ONE ->
                cost2_den c * (100 * a - 99) <= 100 * cost2 c (e * ONE)).
  { intros e He Hbe. destruct (Z.eq_dec (e * ONE) b0) as [E | E].
    - rewrite E. specialize (Hpb b0 ltac:(lia)). lia.
    - assert (cost2 c (b0 + 1) <= cost2 c (e * ONE)) by (apply cost2_mono; [exact Hp | lia]). lia. }
  assert (Hend : pay <= a1 - a -> pay <= ch) by lia.
  destruct H1 as [(E & Hsrc & Hso) | (E & _ & b1 & Hb1 & Hle & E2 & _)].
  - (* everything was bought *)
    destruct Hso as (Har & Hr & Hx & _).
    set (x := b0 + dest * ONE) in *.
    assert (Hx0 : 0 <= x) by lia.
    destruct (area_exact c x Hp Hx0) as [_ X2].
    assert (Cx : 200 * cost2 c x < cost2_den c * (200 * a1 + 101)).
    { unfold cost2_den, cost_den. destruct Hp as (_ & P1 & P2 & P3).
      assert (0 < 2 * ONE * slope_den c * price_den c) by (repeat apply Z.mul_pos_pos; lia).
      set (G := 2 * ONE * slope_den c * price_den c) in *.
      replace (2 * slope_den c * price_den c * ONE * ONE * (200 * a1 + 101))
        with (G * (ONE * (200 * a1 + 101))) by (subst G; ring).
      assert (G * (200 * (area c x + 2)) <= G * (ONE * (200 * a1 + 101))); [| lia].
      apply Z.mul_le_mono_nonneg_l; [lia |]. unfold ONE in *. lia. }
    set (y := u1 + 1) in *.
    assert (Cxy : 200 * (cost2 c x - cost2 c y) < 121 * cost2_den c) by lia.
    destruct (Z.eq_dec a 0) as [Ea | Ea]; [lia |].
    assert (HRa : cost2_den c * 1 <= cost2_den c * a) by (apply Z.mul_le_mono_nonneg_l; lia).
    assert (Hbp : 0 < b0).
    { destruct (Z.eq_dec b0 0) as [Eb | Eb]; [| lia]. exfalso.
      specialize (Hpb 0 ltac:(lia)). rewrite Eb in C0.
      assert (cost2 c 0 = 0) by (unfold cost2; ring).
      change (0 + 1) with 1 in *. lia. }
    destruct (Z.le_gt_cases x y) as [Hxy | Hxy].
    + destruct H2 as [(Hlt & _) | (_ & _ & _ & Hep & _ & ->)]; [lia |].
      apply Hend. apply sale_pays_at_most; [exact Hp | nia |].
      pose proof (cdivup_spec (u1 - n * ONE) ONE HO) as Hcd. fold (end_position u1 n) in Hcd.
      set (e := end_position u1 n) in *. rewrite E in *.
      destruct (Z.le_gt_cases b0 (e * ONE)) as [Hbe | Hbe]; [apply Hst; [nia | exact Hbe] |].
      assert (e * ONE = b0 - 1) by lia.
      pose proof (Hpb b0 ltac:(lia)). pose proof (Hpb (b0 - 1) ltac:(lia)) as Hq.
      replace (b0 - 1 + 1) with b0 in Hq by ring. rewrite H. lia.
    + set (k := x - y) in *.
      destruct (Z.le_gt_cases b0 k) as [Hk | Hk].
      * exfalso. pose proof (cost2_convex c b0 x b0 Hp ltac:(lia) ltac:(lia)) as Hcv.
        rewrite Z.sub_diag in Hcv. assert (cost2 c 0 = 0) by (unfold cost2; ring).
        assert (cost2 c y <= cost2 c (x - b0)) by (apply cost2_mono; [exact Hp | lia]).
        pose proof (Hpb b0 ltac:(lia)). lia.
      * destruct H2 as [(Hlt & _) | (_ & _ & _ & Hep & _ & ->)]; [lia |].
        apply Hend. apply sale_pays_at_most; [exact Hp | nia |].
        pose proof (cdivup_spec (u1 - n * ONE) ONE HO) as Hcd. fold (end_position u1 n) in Hcd.
        set (e := end_position u1 n) in *. rewrite E in *.
        destruct (Z.le_gt_cases b0 (e * ONE)) as [Hbe | Hbe]; [apply Hst; [nia | exact Hbe] |].
        pose proof (cost2_convex c b0 x k Hp ltac:(lia) ltac:(lia)) as Hcv.
        replace (x - k) with y in Hcv by (subst k; ring).
        assert (cost2 c (b0 - k) <= cost2 c (e * ONE + 1)) by (apply cost2_mono; [exact Hp | lia]).
        pose proof (Hpb b0 ltac:(lia)). pose proof (Hpb (e * ONE) ltac:(lia)). lia.
  - (* a purchase in between *)
    assert (b1 <= u1).
    { apply (b_value_down_le_up c a1); [exact Hp | lia | | exact Hu1].
      unfold b_down in Hb1. rewrite N1, E. exact Hb1. }
    pose proof (div_bounds (b1 - b0) ONE HO) as D. rewrite <- E2 in D.
    destruct H2 as [(Hlt & _) | (_ & _ & _ & Hep & _ & ->)]; [lia |].
    apply Hend. apply sale_pays_at_most; [exact Hp | nia |].
    pose proof (cdivup_spec (u1 - n * ONE) ONE HO) as Hcd. fold (end_position u1 n) in Hcd.
    apply Hst; [nia | lia].
Qed.
