(** How much a round trip on a linear curve can gain (C06). *)
From Verif Require Import Ints Tactics DfsPrecise Fees LinearCurve SwapCurve Spec DfsFacts CurveFacts
  LinearFacts LinearExact SwapFacts FixedFacts LinearProps LinearRound LinearHistory LinearBacked RedeemFacts OfferFacts.

Lemma pays_at_most c v a1 e : linear_pos c -> 0 <= e -> cost2_den c * v <= 100 * cost2 c (e * ONE) ->
  100 * ((a1 * ONE - area c (e * ONE)) / ONE) <= 100 * a1 - v.
Proof.
  intros Hc He H. pose proof ONE_pos as HO.
  assert (Hx : 0 <= e * ONE) by (apply Z.mul_nonneg_nonneg; lia).
  destruct (area_exact c (e * ONE) Hc Hx) as [_ X].
  destruct Hc as (_ & P1 & P2 & P3). unfold cost2_den, cost_den in H.
  set (k := slope_den c * price_den c) in *. assert (Hk : 0 < k) by (apply Z.mul_pos_pos; lia).
  set (ar := area c (e * ONE)) in *. set (C := cost2 c (e * ONE)) in *. clearbody ar C.
  assert (Hlt : 2 * ONE * k * (ONE * v) < 2 * ONE * k * (100 * (ar + 2))).
  { subst k. nia. }
  apply Z.mul_lt_mono_pos_l in Hlt; [| apply Z.mul_pos_pos; lia].
  pose proof (div_bounds (a1 * ONE - ar) ONE HO) as D. set (q := (a1 * ONE - ar) / ONE) in *. clearbody q.
  unfold ONE in *. lia.
Qed.

(** [G] hundredths of a unit bound what 10^-18 tokens cost. *)
Lemma trip_gain c f s a dest r1 r2 G :
  linear_wf c -> linear_validate c = Ok tt -> feeless f ->
  is_u64 a -> is_u64 s -> is_u64 dest -> is_u64 (new_swap_source_amount r1) ->
  0 <= G -> (forall b x, b_up c a = Val b -> 0 <= x <= b -> 100 * (cost2 c (x + 1) - cost2 c x) <= G * cost2_den c) ->
  curve_swap (LinearPrice c) s a dest AtoB f = Val r1 ->
  curve_swap (LinearPrice c) (destination_amount_swapped r1) (new_swap_destination_amount r1)
    (new_swap_source_amount r1) BtoA f = Val r2 ->
  100 * destination_amount_swapped r2 <= 100 * source_amount_swapped r1 + 251 + 2 * G.
Proof.
  intros Hc Hv Hf Ha Hs Hd Ha1 HG HGb H1 H2.
  apply feeless_swap in H1; try assumption.
  destruct H1 as (H1 & _ & _ & HD1 & N1 & M1 & _). cbn [swap_without_fees] in H1.
  pose proof (linear_swap_bounds _ _ _ _ _ _ _ Hc Hs Ha Hd H1) as (B1 & B2 & _).
  apply linear_swap_a_to_b in H1; try assumption.
  destruct H1 as (Hp & _ & _ & b0 & Hb0 & H1).
  assert (Hn : is_u64 (destination_amount_swapped r1)) by (unfold is_u64 in *; lia).
  assert (Hss : is_u64 (new_swap_destination_amount r1)) by (unfold is_u64 in *; lia).
  apply feeless_swap in H2; try assumption.
  destruct H2 as (H2 & _ & _ & HD2 & _). cbn [swap_without_fees] in H2.
  apply linear_swap_b_to_a in H2; try assumption.
  destruct H2 as (_ & _ & _ & u1 & Hu1 & H2).
  set (a1 := new_swap_source_amount r1) in *. set (n := destination_amount_swapped r1) in *.
  set (pay := destination_amount_swapped r2) in *. set (ch := source_amount_swapped r1) in *.
  unfold is_u64, u64_max in *. pose proof ONE_pos as HO.
  pose proof (cost2_den_pos c Hp) as HR.
  pose proof (b_up_bounds c a b0 Hp ltac:(lia) Hb0) as Zb0.
  pose proof (b_up_bounds c a1 u1 Hp ltac:(lia) Hu1) as Zu1.
  pose proof (up_unit c a b0 Hc Hv ltac:(lia) Hb0) as C0.
  pose proof (up_unit c a1 u1 Hc Hv ltac:(lia) Hu1) as C1.
  assert (Hst := fun x => HGb b0 x Hb0).
  assert (E0 : cost2 c 0 = 0) by (unfold cost2; ring).
  (* nobody is paid more than the reserve *)
  assert (Hall : pay <= a1).
  { destruct H2 as [(_ & _ & ->) | (_ & _ & _ & Hep & _ & ->)]; [lia |].
    assert (0 <= cost2 c (end_position u1 n * ONE)).
    { rewrite <- E0. apply cost2_mono; [exact Hp |]. lia. }
    pose proof (pays_at_most c 0 a1 (end_position u1 n) Hp ltac:(nia) ltac:(lia)). lia. }
  assert (Hsell : forall v, n * ONE <= u1 -> cost2_den c * v <= 100 * cost2 c (end_position u1 n * ONE) ->
            100 * pay <= 100 * a1 - v).
  { intros v Hu Hv'. destruct H2 as [(Hlt & _) | (_ & _ & _ & Hep & _ & ->)]; [lia |].
    apply pays_at_most; [exact Hp | nia | exact Hv']. }
  assert (Hcd : u1 - n * ONE <= end_position u1 n * ONE).
  { pose proof (cdivup_spec (u1 - n * ONE) ONE HO) as Q. fold (end_position u1 n) in Q. lia. }
  set (e := end_position u1 n * ONE) in *. clearbody e. clear H2 HGb.
  assert (Hmono : forall x, 0 <= x <= e -> cost2 c x <= cost2 c e) by (intros; apply cost2_mono; [exact Hp | lia]).
  pose proof (Hst b0 ltac:(lia)) as St0.
  destruct H1 as [(E & Hsrc & Hso) | (E & _ & b1 & Hb1 & Hle & E2 & _)].
  - (* everything was bought *)
    destruct Hso as (Har & Hr & Hx & _). rewrite E in *.
    set (x := b0 + dest * ONE) in *.
    destruct (area_exact c x Hp ltac:(lia)) as [_ X2].
    assert (Cx : 100 * cost2 c x < cost2_den c * (100 * a1 + 51)).
    { unfold cost2_den, cost_den. destruct Hp as (_ & P1 & P2 & P3).
      assert (0 < 2 * ONE * slope_den c * price_den c) by (repeat apply Z.mul_pos_pos; lia).
      set (K := 2 * ONE * slope_den c * price_den c) in *.
      replace (2 * slope_den c * price_den c * ONE * ONE * (100 * a1 + 51))
        with (K * (ONE * (100 * a1 + 51))) by (subst K; ring).
      assert (K * (100 * (area c x + 2)) <= K * (ONE * (100 * a1 + 51))); [| lia].
      apply Z.mul_le_mono_nonneg_l; [lia |]. unfold ONE in *. lia. }
    set (y := u1 + 1) in *.
    assert (Cxy : 100 * (cost2 c x - cost2 c y) < 151 * cost2_den c) by lia.
    destruct (Z.le_gt_cases x y) as [Hxy | Hxy].
    + destruct (Z.le_gt_cases (dest * ONE) u1) as [Hge | Hlt].
      * destruct (Z.eq_dec b0 0) as [Eb | Eb].
        -- rewrite Eb in *. change (0 + 1) with 1 in *.
           specialize (Hsell (100 * (a - 1) - G) Hge). specialize (Hmono 0 ltac:(lia)). lia.
        -- pose proof (Hst (b0 - 1) ltac:(lia)) as St1. replace (b0 - 1 + 1) with b0 in St1 by ring.
           specialize (Hsell (100 * (a - 1) - 2 * G) Hge). specialize (Hmono (b0 - 1) ltac:(lia)). lia.
      * assert (Eb : b0 = 0) by lia. rewrite Eb in *. change (0 + 1) with 1 in *. nia.
    + set (k := x - y) in *.
      destruct (Z.le_gt_cases b0 k) as [Hk | Hk].
      * pose proof (cost2_convex c b0 x b0 Hp ltac:(lia) ltac:(lia)) as Hcv.
        rewrite Z.sub_diag in Hcv.
        assert (cost2 c y <= cost2 c (x - b0)) by (apply cost2_mono; [exact Hp | lia]). nia.
      * pose proof (cost2_convex c b0 x k Hp ltac:(lia) ltac:(lia)) as Hcv.
        replace (x - k) with y in Hcv by (subst k; ring).
        pose proof (Hst (b0 - k - 1) ltac:(lia)) as St1. replace (b0 - k - 1 + 1) with (b0 - k) in St1 by ring.
        specialize (Hsell (100 * (a - 1) - 151 - 2 * G) ltac:(lia)). specialize (Hmono (b0 - k - 1) ltac:(lia)). lia.
  - (* a purchase in between *)
    assert (b1 <= u1).
    { apply (b_value_down_le_up c a1); [exact Hp | lia | | exact Hu1].
      unfold b_down in Hb1. rewrite N1, E. exact Hb1. }
    pose proof (div_bounds (b1 - b0) ONE HO) as D. rewrite <- E2 in D.
    specialize (Hsell (100 * (a - 1) - G) ltac:(lia)). specialize (Hmono b0 ltac:(lia)). lia.
Qed.

(** No price a 64-bit reserve reaches exceeds 3.2 * 10^19. *)
Lemma price_limit c a b x : linear_pos c -> 0 <= a <= u64_max -> b_up c a = Val b ->
  0 <= x <= b -> 100 * (cost2 c (x + 1) - cost2 c x) <= 3197 * cost2_den c.
Proof.
  intros Hc Ha H Hx. unfold u64_max in Ha.
  destruct (b_up_root c a b Hc ltac:(lia) H) as (r & Eb & Zr & _ & S1 & S2).
  pose proof (disc_bounds c a Hc ltac:(lia)) as Db.
  rewrite cost2_step. unfold cost2_den, cost_den, price_num_at.
  pose proof (e_val_exact c Hc) as HE. pose proof (e_val_bounds c Hc) as HEb.
  assert (Hd : disc c a <= 3 * 2 ^ 128 * ONE).
  { unfold disc. destruct Hc as (Hwf & P1 & P2 & P3). destruct Hwf as (Sn & _ & Pn & _). unfold is_u64, u64_max in Pn, Sn.
    pose proof ONE_pos as HO.
    assert (price_num c * price_num c * ONE / (price_den c * price_den c) <= 2 ^ 128 * ONE).
    { apply Z.div_le_upper_bound; [apply Z.mul_pos_pos; lia |].
      assert (price_num c * price_num c <= 2 ^ 64 * 2 ^ 64) by (apply Z.mul_le_mono_nonneg; lia).
      assert (price_num c * price_num c * ONE <= 2 ^ 128 * ONE) by (apply Z.mul_le_mono_nonneg_r; lia).
      assert (1 * (2 ^ 128 * ONE) <= price_den c * price_den c * (2 ^ 128 * ONE)) by (apply Z.mul_le_mono_nonneg_r; nia).
      lia. }
    assert (2 * slope_num c * a * ONE / slope_den c <= 2 * 2 ^ 128 * ONE).
    { apply Z.div_le_upper_bound; [lia |].
      assert (slope_num c * a <= 2 ^ 64 * 2 ^ 64) by (apply Z.mul_le_mono_nonneg; lia).
      assert (2 * (slope_num c * a) * ONE <= 2 * 2 ^ 128 * ONE) by (apply Z.mul_le_mono_nonneg_r; lia).
      assert (1 * (2 * 2 ^ 128 * ONE) <= slope_den c * (2 * 2 ^ 128 * ONE)) by (apply Z.mul_le_mono_nonneg_r; lia).
      lia. }
    lia. }
  assert (Hr : r <= 3196 * 10 ^ 34).
  { destruct (Z.eq_dec (disc c a) 0) as [E | E]; [rewrite (S1 E); lia |].
    destruct (S2 ltac:(lia)) as [_ S3]. clear S1 S2.
    destruct (Z.le_gt_cases r (3196 * 10 ^ 34)) as [| Hgt]; [assumption | exfalso].
    assert (3196 * 10 ^ 34 * (2 ^ 31 - 1) * (3196 * 10 ^ 34 * (2 ^ 31 - 1)) <=
            (r - 1) * (2 ^ 31 - 1) * ((r - 1) * (2 ^ 31 - 1))) by (apply Z.mul_le_mono_nonneg; lia).
    unfold ONE in *. lia. }
  destruct Hc as (Hwf & P1 & P2 & P3). destruct Hwf as (Sn & _ & Pn & _). unfold is_u64, u64_max in Pn, Sn.
  set (sn := slope_num c) in *. set (sd := slope_den c) in *. set (pd := price_den c) in *.
  set (pn := price_num c) in *. set (e := e_val c) in *.
  assert (Hsp : 0 < sd * pd) by (apply Z.mul_pos_pos; lia).
  assert (HP : pn * sd * ONE + sn * pd * b <= (3196 * 10 ^ 34 + 1) * (sd * pd)).
  { assert (sd * (pn * ONE) <= sd * ((e + 1) * pd)) by (apply Z.mul_le_mono_nonneg_l; lia).
    destruct (Z.le_gt_cases r e) as [Hle | Hgt].
    - assert (b = 0).
      { rewrite Eb. unfold b_of_root. rewrite Z.max_l by lia. apply Z.div_0_l; lia. }
      assert (pn * (sd * ONE) <= 2 ^ 64 * pd * (sd * ONE)).
      { apply Z.mul_le_mono_nonneg_r; [unfold ONE; lia |]. nia. }
      subst b. rewrite H1. unfold ONE in *. lia.
    - assert (sn * b <= (r - e) * sd).
      { rewrite Eb. unfold b_of_root. rewrite Z.max_r by lia. fold sd sn e.
        pose proof (div_bounds ((r - e) * sd) sn P1). lia. }
      assert (pd * (sn * b) <= pd * ((r - e) * sd)) by (apply Z.mul_le_mono_nonneg_l; lia).
      assert ((r + 1) * (sd * pd) <= (3196 * 10 ^ 34 + 1) * (sd * pd)) by (apply Z.mul_le_mono_nonneg_r; lia).
      nia. }
  assert (sn * pd * x <= sn * pd * b) by (apply Z.mul_le_mono_nonneg_l; [apply Z.mul_nonneg_nonneg; lia | lia]).
  assert (sn * pd <= 2 ^ 64 * (sd * pd)).
  { replace (2 ^ 64 * (sd * pd)) with (2 ^ 64 * sd * pd) by ring. apply Z.mul_le_mono_nonneg_r; [lia |]. nia. }
  replace (2 * sd * pd * ONE * ONE) with (2 * ONE * ONE * (sd * pd)) by ring.
  set (k := sd * pd) in *. unfold ONE in *. lia.
Qed.

(** Where little has been paid, 10^-18 tokens cost at most the greatest starting price and a trifle. *)
Lemma early_step c b : linear_pos c -> 0 <= b -> cost2 c b <= 100 * cost2_den c ->
  100 * (cost2 c (b + 1) - cost2 c b) <= 1845 * cost2_den c.
Proof.
  intros Hc Hb H. rewrite cost2_step. destruct Hc as (Hwf & P1 & P2 & P3). destruct Hwf as (Sn & _ & Pn & _).
  unfold cost2, cost2_den, cost_den, price_num_at in *. unfold is_u64, u64_max in Pn, Sn.
  set (sn := slope_num c) in *. set (sd := slope_den c) in *. set (pd := price_den c) in *. set (pn := price_num c) in *.
  set (k := sd * pd). assert (Hk : 0 < k) by (apply Z.mul_pos_pos; lia).
  assert (H1 : sn * pd * (b * b) <= 200 * (k * ONE * ONE)).
  { assert (0 <= 2 * sd * pn * b * ONE) by (repeat apply Z.mul_nonneg_nonneg; unfold ONE; lia). subst k. lia. }
  assert (Sq : 2 * b * 10 ^ 10 <= b * b + 10 ^ 10 * 10 ^ 10) by (pose proof (Z.square_nonneg (b - 10 ^ 10)); lia).
  assert (H2 : sn * pd * (2 * b * 10 ^ 10) <= sn * pd * (b * b + 10 ^ 10 * 10 ^ 10)).
  { apply Z.mul_le_mono_nonneg_l; [apply Z.mul_nonneg_nonneg; lia | exact Sq]. }
  assert (H3 : sn * pd <= 18446744073709551615 * k).
  { subst k. replace (18446744073709551615 * (sd * pd)) with (18446744073709551615 * sd * pd) by ring.
    apply Z.mul_le_mono_nonneg_r; lia. }
  assert (H4 : pn * sd <= 18446744073709551615 * k).
  { subst k. assert (pn * sd <= 18446744073709551615 * sd) by (apply Z.mul_le_mono_nonneg_r; lia).
    assert (sd * 1 <= sd * pd) by (apply Z.mul_le_mono_nonneg_l; lia). lia. }
  replace (2 * sd * pd * ONE * ONE) with (2 * (k * ONE * ONE)) by (subst k; ring).
  set (q := sn * pd) in *. set (z := pn * sd) in *. clearbody q z k.
  replace (2 * (z * ONE + q * b) + q) with (2 * z * ONE + (q * (2 * b) + q)) by ring.
  assert (H5 : q * (2 * b) * 10 ^ 10 <= 200 * (k * ONE * ONE) + q * (10 ^ 10 * 10 ^ 10)) by lia.
  set (y := q * (2 * b)) in *. clearbody y. unfold ONE in *. lia.
Qed.

(** Whoever has a token left to buy has not paid more than half of what there is for the one before. *)
Lemma late_step c b a1 : linear_pos c -> ONE <= b -> 0 <= a1 <= u64_max -> 100 * cost2 c (b + ONE) < cost2_den c * (100 * a1 + 51) ->
  100 * (cost2 c (b + 1) - cost2 c b) <= 924 * cost2_den c.
Proof.
  intros Hc Hb Ha H. rewrite cost2_step. destruct Hc as (Hwf & P1 & P2 & P3). destruct Hwf as (Sn & _ & Pn & _).
  unfold cost2, cost2_den, cost_den, price_num_at in *. unfold is_u64, u64_max in *.
  set (sn := slope_num c) in *. set (sd := slope_den c) in *. set (pd := price_den c) in *. set (pn := price_num c) in *.
  set (k := sd * pd). assert (Hk : 0 < k) by (apply Z.mul_pos_pos; lia).
  assert (H3 : sn * pd <= 18446744073709551615 * k).
  { subst k. replace (18446744073709551615 * (sd * pd)) with (18446744073709551615 * sd * pd) by ring.
    apply Z.mul_le_mono_nonneg_r; lia. }
  assert (Sq : 4 * b * ONE <= (b + ONE) * (b + ONE)) by (pose proof (Z.square_nonneg (b - ONE)); lia).
  assert (H1 : sn * pd * (4 * b * ONE) <= sn * pd * ((b + ONE) * (b + ONE))).
  { apply Z.mul_le_mono_nonneg_l; [apply Z.mul_nonneg_nonneg; lia | exact Sq]. }
  assert (H2 : 2 * sd * pn * ONE * (2 * ONE) <= 2 * sd * pn * ONE * (b + ONE)).
  { apply Z.mul_le_mono_nonneg_l; [repeat apply Z.mul_nonneg_nonneg; unfold ONE; lia | lia]. }
  assert (H4 : 2 * sd * pd * ONE * ONE * (100 * a1 + 51) <= 2 * sd * pd * ONE * ONE * (100 * 18446744073709551615 + 51)).
  { apply Z.mul_le_mono_nonneg_l; [repeat apply Z.mul_nonneg_nonneg; unfold ONE; lia | lia]. }
  replace (2 * sd * pd * ONE * ONE) with (2 * (k * ONE * ONE)) in * by (subst k; ring).
  set (q := sn * pd) in *.
  assert (H5 : 100 * (q * (4 * b * ONE) + 2 * sd * pn * ONE * (2 * ONE)) <= 2 * (k * ONE * ONE) * (100 * 18446744073709551615 + 51)) by lia.
  replace (q * (4 * b * ONE) + 2 * sd * pn * ONE * (2 * ONE)) with (2 * ONE * (2 * (pn * sd * ONE + q * b))) in H5 by ring.
  set (y := 2 * (pn * sd * ONE + q * b)) in *. clearbody y q k. clear - Hk H3 H5. unfold ONE in *. lia.
Qed.

Lemma gain_any c f s a dest r1 r2 :
  linear_wf c -> linear_validate c = Ok tt -> feeless f ->
  is_u64 a -> is_u64 s -> is_u64 dest -> is_u64 (new_swap_source_amount r1) ->
  curve_swap (LinearPrice c) s a dest AtoB f = Val r1 ->
  curve_swap (LinearPrice c) (destination_amount_swapped r1) (new_swap_destination_amount r1)
    (new_swap_source_amount r1) BtoA f = Val r2 ->
  destination_amount_swapped r2 <= source_amount_swapped r1 + 39.
Proof.
  intros Hc Hv Hf Ha Hs Hd Ha1 H1 H2.
  apply feeless_swap in H1; try assumption.
  destruct H1 as (H1 & _ & _ & HD1 & N1 & M1 & _). cbn [swap_without_fees] in H1.
  pose proof (linear_swap_bounds _ _ _ _ _ _ _ Hc Hs Ha Hd H1) as (B1 & B2 & _).
  apply linear_swap_a_to_b in H1; try assumption.
  destruct H1 as (Hp & _ & _ & b0 & Hb0 & H1).
  assert (Hn : is_u64 (destination_amount_swapped r1)) by (unfold is_u64 in *; lia).
  assert (Hss : is_u64 (new_swap_destination_amount r1)) by (unfold is_u64 in *; lia).
  apply feeless_swap in H2; try assumption.
  destruct H2 as (H2 & _ & _ & HD2 & _). cbn [swap_without_fees] in H2.
  apply linear_swap_b_to_a in H2; try assumption.
  destruct H2 as (_ & _ & _ & u1 & Hu1 & H2).
  set (a1 := new_swap_source_amount r1) in *. set (n := destination_amount_swapped r1) in *.
  set (pay := destination_amount_swapped r2) in *. set (ch := source_amount_swapped r1) in *.
  unfold is_u64, u64_max in *. pose proof ONE_pos as HO.
  pose proof (cost2_den_pos c Hp) as HR.
  pose proof (b_up_bounds c a b0 Hp ltac:(lia) Hb0) as Zb0.
  pose proof (b_up_bounds c a1 u1 Hp ltac:(lia) Hu1) as Zu1.
  pose proof (up_unit c a b0 Hc Hv ltac:(lia) Hb0) as C0.
  pose proof (up_unit c a1 u1 Hc Hv ltac:(lia) Hu1) as C1.
  assert (E0 : cost2 c 0 = 0) by (unfold cost2; ring).
  (* nobody is paid more than the reserve *)
  assert (Hall : pay <= a1).
  { destruct H2 as [(_ & _ & ->) | (_ & _ & _ & Hep & _ & ->)]; [lia |].
    assert (0 <= cost2 c (end_position u1 n * ONE)).
    { rewrite <- E0. apply cost2_mono; [exact Hp |]. lia. }
    pose proof (pays_at_most c 0 a1 (end_position u1 n) Hp ltac:(nia) ltac:(lia)). lia. }
  assert (Hsell : forall v, n * ONE <= u1 -> cost2_den c * v <= 100 * cost2 c (end_position u1 n * ONE) ->
            100 * pay <= 100 * a1 - v).
  { intros v Hu Hv'. destruct H2 as [(Hlt & _) | (_ & _ & _ & Hep & _ & ->)]; [lia |].
    apply pays_at_most; [exact Hp | nia | exact Hv']. }
  assert (Hcd : u1 - n * ONE <= end_position u1 n * ONE).
  { pose proof (cdivup_spec (u1 - n * ONE) ONE HO) as Q. fold (end_position u1 n) in Q. lia. }
  assert (Hmono : forall x y, 0 <= x <= y -> cost2 c x <= cost2 c y) by (intros; apply cost2_mono; [exact Hp | lia]).
  assert (Mstep : forall x y, x <= y -> cost2 c (x + 1) - cost2 c x <= cost2 c (y + 1) - cost2 c y).
  { intros x y Hxy. pose proof (cost2_convex c (x + 1) (y + 1) 1 Hp ltac:(lia) ltac:(lia)) as Q.
    replace (x + 1 - 1) with x in Q by ring. replace (y + 1 - 1) with y in Q by ring. exact Q. }
  destruct H1 as [(E & Hsrc & Hso) | (E & _ & b1 & Hb1 & Hle & E2 & _)].
  2: { (* a purchase in between *)
    pose proof (price_limit c a b0 b0 Hp ltac:(unfold u64_max; lia) Hb0 ltac:(lia)) as St0.
    assert (b1 <= u1).
    { apply (b_value_down_le_up c a1); [exact Hp | lia | | exact Hu1].
      unfold b_down in Hb1. rewrite N1, E. exact Hb1. }
    pose proof (div_bounds (b1 - b0) ONE HO) as D. rewrite <- E2 in D.
    set (e := end_position u1 n * ONE) in *. clearbody e.
    specialize (Hsell (100 * (a - 1) - 3197) ltac:(lia)). specialize (Hmono b0 e ltac:(lia)). lia. }
  (* everything was bought *)
  destruct Hso as (Har & Hr & Hx & _). rewrite E in *.
  set (x := b0 + dest * ONE) in *.
  destruct (area_exact c x Hp ltac:(lia)) as [_ X2].
  assert (Cx : 100 * cost2 c x < cost2_den c * (100 * a1 + 51)).
  { unfold cost2_den, cost_den. destruct Hp as (_ & P1 & P2 & P3).
    assert (0 < 2 * ONE * slope_den c * price_den c) by (repeat apply Z.mul_pos_pos; lia).
    set (K := 2 * ONE * slope_den c * price_den c) in *.
    replace (2 * slope_den c * price_den c * ONE * ONE * (100 * a1 + 51))
      with (K * (ONE * (100 * a1 + 51))) by (subst K; ring).
    assert (K * (100 * (area c x + 2)) <= K * (ONE * (100 * a1 + 51))); [| lia].
    apply Z.mul_le_mono_nonneg_l; [lia |]. unfold ONE in *. lia. }
  set (y := u1 + 1) in *.
  assert (Cxy : 100 * (cost2 c x - cost2 c y) < 151 * cost2_den c) by lia.
  assert (Hdest : 1 <= dest) by lia.
  assert (Hk : forall k, 0 <= k -> y <= x - k \/ k = 0 -> 100 * (cost2 c b0 - cost2 c (b0 - k)) < 151 * cost2_den c).
  { intros k Hk [Hy | ->]; [| rewrite Z.sub_0_r; lia].
    pose proof (cost2_convex c b0 x k Hp Hk ltac:(unfold x, ONE in *; lia)) as Q.
    specialize (Hmono y (x - k) ltac:(unfold y in *; lia)). lia. }
  assert (S0 : 100 * cost2 c 1 <= 1845 * cost2_den c).
  { pose proof (early_step c 0 Hp ltac:(lia) ltac:(lia)) as Q. change (0 + 1) with 1 in Q. lia. }
  destruct (Z.le_gt_cases ONE b0) as [Hone | Hone].
  - (* a whole token was out before *)
    assert (Hl : 100 * cost2 c (b0 + ONE) < cost2_den c * (100 * a1 + 51)).
    { specialize (Hmono (b0 + ONE) x ltac:(unfold x, ONE in *; lia)). lia. }
    pose proof (late_step c b0 a1 Hp Hone ltac:(unfold u64_max; lia) Hl) as St0.
    set (e := end_position u1 dest * ONE) in *. clearbody e.
    set (k := Z.max 0 (x - y)).
    destruct (Z.le_gt_cases b0 k) as [Hbk | Hbk].
    + specialize (Hk b0 ltac:(lia) ltac:(lia)). rewrite Z.sub_diag in Hk.
      assert (100 * (a - 1) < 1076) by (apply (Z.mul_lt_mono_pos_l (cost2_den c)); lia). lia.
    + specialize (Hk k ltac:(lia) ltac:(lia)).
      pose proof (Mstep (b0 - k - 1) b0 ltac:(lia)) as St1. replace (b0 - k - 1 + 1) with (b0 - k) in St1 by ring.
      specialize (Hsell (100 * (a - 1) - 151 - 2 * 924)).
      assert (Hlow : b0 - k - 1 <= u1 - dest * ONE) by (unfold k, x, y in *; lia).
      specialize (Hmono (b0 - k - 1) e ltac:(lia)). lia.
  - (* none was *)
    assert (Hlast : u1 <= dest * ONE -> pay <= ch + 39).
    { intros Hu. destruct (Z.eq_dec b0 0) as [Eb | Eb].
      { rewrite Eb in *. change (0 + 1) with 1 in *.
        assert (100 * (a - 1) <= 1845) by (apply (Z.mul_le_mono_pos_l _ _ (cost2_den c)); lia). lia. }
      specialize (Hk (b0 - 1) ltac:(lia) ltac:(unfold x, y; lia)).
      replace (b0 - (b0 - 1)) with 1 in Hk by ring.
      pose proof (early_step c b0 Hp ltac:(lia) ltac:(lia)) as St0.
      assert (100 * (a - 1) < 3842) by (apply (Z.mul_lt_mono_pos_l (cost2_den c)); lia). lia. }
    destruct (Z.le_gt_cases (dest * ONE) u1) as [Hge | Hlt]; [| apply Hlast; lia].
    destruct (Z.le_gt_cases u1 (dest * ONE)) as [Hle | Hgt]; [apply Hlast; lia |].
    assert (He : ONE <= end_position u1 dest * ONE).
    { pose proof (end_position_nonneg u1 dest Hge) as Hnn. destruct (Z.eq_dec (end_position u1 dest) 0) as [Ez | Nz]; [| nia].
      rewrite Ez in Hcd. lia. }
    set (e := end_position u1 dest * ONE) in *. clearbody e.
    specialize (Hsell (100 * (a - 1)) Hge). specialize (Hmono (b0 + 1) e ltac:(lia)). lia.
Qed.

Lemma gain_moderate c f s a dest r1 r2 :
  linear_wf c -> linear_validate c = Ok tt -> moderate c -> feeless f ->
  is_u64 a -> is_u64 s -> is_u64 dest -> is_u64 (new_swap_source_amount r1) ->
  curve_swap (LinearPrice c) s a dest AtoB f = Val r1 ->
  curve_swap (LinearPrice c) (destination_amount_swapped r1) (new_swap_destination_amount r1)
    (new_swap_source_amount r1) BtoA f = Val r2 ->
  destination_amount_swapped r2 <= source_amount_swapped r1 + 2.
Proof.
  intros Hc Hv Hm Hf Ha Hs Hd Ha1 H1 H2.
  enough (100 * destination_amount_swapped r2 <= 100 * source_amount_swapped r1 + 251 + 2 * 12) by lia.
  apply (trip_gain c f s a dest r1 r2 12); try assumption; [lia |].
  intros b x Hb Hx. pose proof (price_bound c a b x (validated_pos c Hc Hv) Hm Ha Hb Hx). lia.
Qed.

(** Whole-number parameters: at a price of 4.6 * 10^18 a purchase and a sale of one token gain 3 units,
    because the position is counted in units of 10^-18 tokens. *)
Lemma gain_dear : exists c s a dest r1 r2,
  linear_wf c /\ linear_validate c = Ok tt /\ slope_den c = 1 /\ price_den c = 1 /\
  is_u64 a /\ is_u64 s /\ is_u64 dest /\ is_u64 (new_swap_source_amount r1) /\
  curve_swap (LinearPrice c) s a dest AtoB (mk_fees 0 0 0 0 0 0 0 0) = Val r1 /\
  curve_swap (LinearPrice c) (destination_amount_swapped r1) (new_swap_destination_amount r1)
    (new_swap_source_amount r1) BtoA (mk_fees 0 0 0 0 0 0 0 0) = Val r2 /\
  destination_amount_swapped r1 = 1 /\ destination_amount_swapped r2 = source_amount_swapped r1 + 3.
Proof.
  exists (mk_linear (2 ^ 61 + 2) 1 (2 ^ 61 - 4) 1), 5764607523034234876, (2 ^ 61 + 2 ^ 60), 100,
    (mk_swap_result 9223372036854775804 99 5764607523034234876 1 0 0),
    (mk_swap_result 100 3458764513820540925 1 5764607523034234879 0 0).
  split; [vm_compute; intuition congruence |]. vm_compute. repeat split; congruence.
Qed.

(** The last token, bought for almost 2^64 units and sold back for 36 more: the whole reserve. *)
Lemma gain_dearest : exists c s a dest r1 r2,
  linear_wf c /\ linear_validate c = Ok tt /\ is_u64 a /\ is_u64 s /\ is_u64 dest /\ is_u64 (new_swap_source_amount r1) /\
  curve_swap (LinearPrice c) s a dest AtoB (mk_fees 0 0 0 0 0 0 0 0) = Val r1 /\
  curve_swap (LinearPrice c) (destination_amount_swapped r1) (new_swap_destination_amount r1)
    (new_swap_source_amount r1) BtoA (mk_fees 0 0 0 0 0 0 0 0) = Val r2 /\
  destination_amount_swapped r1 = 1 /\ destination_amount_swapped r2 = source_amount_swapped r1 + 36 /\
  new_swap_destination_amount r2 = 0.
Proof.
  exists (mk_linear 18170693792133491146 37 18201186250863960979 1), 18446736166973873004, 36, 1,
    (mk_swap_result 18446736166973873040 0 18446736166973873004 1 0 0),
    (mk_swap_result 1 0 1 18446736166973873040 0 0).
  split; [vm_compute; intuition congruence |]. vm_compute. repeat split; congruence.
Qed.

(** ** Splitting a sale (C73) *)
Lemma split_gain c f n1 n2 ss a r1 r2 r :
  linear_wf c -> linear_validate c = Ok tt -> feeless f -> is_u64 a -> is_u64 ss -> is_u64 n1 -> is_u64 n2 -> is_u64 (n1 + n2) ->
  is_u64 (new_swap_source_amount r1) ->
  curve_swap (LinearPrice c) n1 ss a BtoA f = Val r1 ->
  curve_swap (LinearPrice c) n2 (new_swap_source_amount r1) (new_swap_destination_amount r1) BtoA f = Val r2 ->
  curve_swap (LinearPrice c) (n1 + n2) ss a BtoA f = Val r ->
  destination_amount_swapped r1 + destination_amount_swapped r2 <= destination_amount_swapped r + 2.
Proof.
  intros Hc Hv Hf Ha Hss Hn1 Hn2 Hn12 Hs1 H1 H2 H.
  apply feeless_swap in H1; try assumption. apply feeless_swap in H2; try assumption.
  apply feeless_swap in H; try assumption.
  destruct H1 as (H1 & _ & _ & HD1 & N1 & M1 & _). destruct H2 as (H2 & _ & _ & HD2 & N2 & M2 & _).
  destruct H as (H & _ & _ & HD & _). cbn [swap_without_fees] in *.
  pose proof (linear_swap_bounds _ _ _ _ _ _ _ Hc Hn1 Hss Ha H1) as (_ & B1 & _).
  assert (Ha1 : is_u64 (new_swap_destination_amount r1)) by (unfold is_u64 in *; lia).
  pose proof (linear_swap_bounds _ _ _ _ _ _ _ Hc Hn2 Hs1 Ha1 H2) as (_ & B2 & _).
  apply linear_swap_b_to_a in H1; try assumption. apply linear_swap_b_to_a in H2; try assumption.
  apply linear_swap_b_to_a in H; try assumption.
  destruct H1 as (Hp & _ & _ & b0 & Hb0 & H1). destruct H as (_ & _ & _ & b0' & Hb0' & H).
  rewrite Hb0 in Hb0'. injection Hb0' as <-.
  destruct H as [(_ & _ & ->) | (G & _ & HA & HB & _ & E)]; [lia |].
  pose proof ONE_pos as HO. unfold is_u64 in *.
  destruct H1 as [(L1 & _) | (G1 & _ & HA1 & HB1 & _ & E1)]; [exfalso; nia |].
  destruct H2 as (_ & _ & _ & b1 & Hb1 & H2). rewrite M1 in *.
  set (e := end_position b0 (n1 + n2)) in *. set (e1 := end_position b0 n1) in *.
  assert (Ke : (e - 1) * ONE < b0 - (n1 + n2) * ONE <= e * ONE).
  { pose proof (cdivup_spec (b0 - (n1 + n2) * ONE) ONE HO). unfold e, end_position. lia. }
  assert (Ke1 : (e1 - 1) * ONE < b0 - n1 * ONE <= e1 * ONE).
  { pose proof (cdivup_spec (b0 - n1 * ONE) ONE HO). unfold e1, end_position. lia. }
  assert (Ee : e = e1 - n2).
  { assert ((e - 1) * ONE < (e1 - n2) * ONE) by lia. assert ((e1 - n2 - 1) * ONE < e * ONE) by lia.
    apply Z.mul_lt_mono_pos_r in H, H0; lia. }
  set (a1 := a - destination_amount_swapped r1) in *.
  assert (Hk1 : area c (e1 * ONE) <= a1 * ONE).
  { pose proof (div_bounds (a * ONE - area c (e1 * ONE)) ONE HO) as D. rewrite <- E1 in D. subst a1. lia. }
  assert (He0 : 0 <= e) by nia.
  pose proof (b_up_bounds c a1 b1 Hp ltac:(unfold u64_max in *; lia) Hb1) as Zb1.
  pose proof (up_unit c a1 b1 Hc Hv ltac:(unfold u64_max in *; lia) Hb1) as C1.
  destruct (area_exact c (e1 * ONE) Hp ltac:(nia)) as [_ X1].
  destruct (area_exact c (e * ONE) Hp ltac:(nia)) as [X0 _].
  assert (HK : exists K, 0 < K /\ 2 * ONE * slope_den c * price_den c = K /\ cost2_den c = K * ONE /\ price_den c * HALF <= K).
  { destruct Hp as (_ & P1 & P2 & P3). exists (2 * ONE * slope_den c * price_den c).
    split; [repeat apply Z.mul_pos_pos; lia |]. split; [reflexivity |]. split; [unfold cost2_den, cost_den; ring |].
    assert (price_den c * HALF <= price_den c * (2 * ONE * slope_den c)) by (apply Z.mul_le_mono_nonneg_l; unfold HALF, ONE in *; lia). lia. }
  destruct HK as (K & K0 & EK & ED & HPH). rewrite EK in *. rewrite ED in *.
  assert (Cd : cost2 c (e1 * ONE) - cost2 c (b1 + 1) < K * (ONE + 2)).
  { assert (K * (area c (e1 * ONE) + 2) <= K * (a1 * ONE + 2)) by (apply Z.mul_le_mono_nonneg_l; lia). lia. }
  pose proof (div_bounds (a * ONE - area c (e * ONE)) ONE HO) as D. rewrite <- E in D.
  assert (E0 : cost2 c 0 = 0) by (unfold cost2; ring).
  destruct H2 as [(L2 & _ & Hall) | (G2 & _ & HA2 & HB2 & _ & E2)].
  { (* the second sale takes the whole reserve *)
    pose proof (cost2_convex c (e * ONE) (e1 * ONE) (e * ONE) Hp ltac:(lia) ltac:(nia)) as Hcv.
    rewrite Z.sub_diag, E0 in Hcv. replace (e1 * ONE - e * ONE) with (n2 * ONE) in Hcv by (rewrite Ee; ring).
    assert (cost2 c (b1 + 1) <= cost2 c (n2 * ONE)) by (apply cost2_mono; [exact Hp | lia]).
    assert (Hlt : K * area c (e * ONE) < K * (ONE + 3)) by lia.
    apply Z.mul_lt_mono_pos_l in Hlt; [| exact K0]. rewrite Hall. subst a1. unfold ONE in *. lia. }
  set (e2 := end_position b1 n2) in *.
  assert (Ke2 : b1 - n2 * ONE <= e2 * ONE).
  { pose proof (cdivup_spec (b1 - n2 * ONE) ONE HO). unfold e2, end_position. lia. }
  destruct (area_exact c (e2 * ONE) Hp ltac:(nia)) as [_ X2].
  pose proof (div_bounds (a1 * ONE - area c (e2 * ONE)) ONE HO) as D2. rewrite <- E2 in D2.
  enough (Hlt : area c (e * ONE) < area c (e2 * ONE) + ONE + 8) by (subst a1; unfold ONE in *; lia).
  apply (Z.mul_lt_mono_pos_l K); [exact K0 |].
  enough (cost2 c (e * ONE) - cost2 c (e2 * ONE) <= K * (ONE + 4)) by lia.
  assert (K4 : 0 <= K * (ONE + 4)) by (apply Z.mul_nonneg_nonneg; lia).
  destruct (Z.le_gt_cases (e1 * ONE) (b1 + 1)) as [Hnear | Hfar].
  { (* the position is not behind *)
    assert (e <= e2) by (unfold ONE in *; lia).
    assert (cost2 c (e * ONE) <= cost2 c (e2 * ONE)) by
      (apply cost2_mono; [exact Hp | split; [apply Z.mul_nonneg_nonneg; lia | apply Z.mul_le_mono_nonneg_r; lia]]). lia. }
  destruct (Z.lt_ge_cases ((e1 - 1) * ONE) b1) as [Hnear | Hlag].
  { assert (e <= e2) by (unfold ONE in *; lia).
    assert (cost2 c (e * ONE) <= cost2 c (e2 * ONE)) by
      (apply cost2_mono; [exact Hp | split; [apply Z.mul_nonneg_nonneg; lia | apply Z.mul_le_mono_nonneg_r; lia]]). lia. }
  set (k := e1 * ONE - (b1 + 1)) in *.
  pose proof (cost2_convex c (e * ONE) (e1 * ONE) k Hp ltac:(lia) ltac:(nia)) as Hcv.
  replace (e1 * ONE - k) with (b1 + 1) in Hcv by (subst k; ring).
  replace (e * ONE - k) with (b1 - n2 * ONE + 1) in Hcv by (subst k; rewrite Ee; ring).
  set (z := b1 - n2 * ONE) in *.
  assert (Hz : cost2 c z <= cost2 c (e2 * ONE)) by (apply cost2_mono; [exact Hp | lia]).
  assert (Hstep : cost2 c (z + 1) - cost2 c z <= K * 2).
  { rewrite cost2_step. pose proof (cost2_slope c (b1 + 1) (e1 * ONE) Hp ltac:(lia)) as [Sl _].
    assert (Hpr : 2 * price_num_at c z + slope_num c * price_den c <= 2 * price_num_at c (b1 + 1)).
    { destruct Hp as (_ & P1 & P2 & P3). unfold price_num_at. assert (0 <= slope_num c * price_den c) by nia.
      assert (slope_num c * price_den c * (z + 1) <= slope_num c * price_den c * (b1 + 1)) by (apply Z.mul_le_mono_nonneg_l; nia). lia. }
    assert (Hk : ONE - 1 <= e1 * ONE - (b1 + 1)) by lia.
    set (P := 2 * price_num_at c z + slope_num c * price_den c) in *.
    set (P1 := 2 * price_num_at c (b1 + 1)) in *.
    destruct (Z.le_gt_cases P (K * 2)) as [| Hgt]; [assumption | exfalso].
    assert (K * 2 * (ONE - 1) <= P1 * (e1 * ONE - (b1 + 1))) by (apply Z.mul_le_mono_nonneg; [lia | lia | unfold ONE; lia | lia]).
    unfold ONE in *. lia. }
  lia.
Qed.
