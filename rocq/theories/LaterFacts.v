(** The same offer at different reserves (C124). *)
From Verif Require Import Ints Tactics DfsPrecise Fees LinearCurve SwapCurve Codec Token Processor Api History Spec DfsFacts LinearFacts
  SwapFacts LinearExact LinearProps LinearRound LinearHistory LinearBacked LedgerSpec TraceSpec RoundSpec BackFacts
  RedeemFacts OfferFacts DriftFacts LockSpec LockFacts TokenFacts EffectFacts VaultFacts HistoryFacts LedgerLinear DriftLedger.

(** The exact position, rounded down. *)
Lemma position_floor c a : linear_pos c -> 0 <= a -> exists x, 0 <= x /\ cost2 c x <= cost2_den c * a < cost2 c (x + 1).
Proof.
  intros Hp Ha. pose proof (cost2_den_pos c Hp) as HD. pose proof Hp as ((_ & _ & Y & _) & P1 & P2 & P3). unfold is_u64 in Y. pose proof ONE_pos as HO.
  assert (N0 : 0 < slope_num c * price_den c) by (apply Z.mul_pos_pos; lia).
  assert (B0 : 0 <= price_num c * slope_den c * ONE) by (repeat apply Z.mul_nonneg_nonneg; lia).
  assert (Q : forall x, 0 <= x -> (cost2 c x <= cost2_den c * a <->
     price_num_at c x * price_num_at c x <= price_num c * slope_den c * ONE * (price_num c * slope_den c * ONE) + slope_num c * price_den c * (cost2_den c * a))).
  { intros x Hx. rewrite price_at_sq. rewrite <- Z.add_le_mono_l. apply Z.mul_le_mono_pos_l. exact N0. }
  assert (V : forall x, price_num_at c x = price_num c * slope_den c * ONE + slope_num c * price_den c * x) by reflexivity.
  assert (T : 0 <= slope_num c * price_den c * (cost2_den c * a)) by (apply Z.mul_nonneg_nonneg; [lia | apply Z.mul_nonneg_nonneg; lia]).
  set (B := price_num c * slope_den c * ONE) in *. set (N := slope_num c * price_den c) in *.
  set (t := N * (cost2_den c * a)) in *.
  pose proof (Z.sqrt_spec (B * B + t) ltac:(nia)) as S. set (R := Z.sqrt (B * B + t)) in *.
  assert (R0 : 0 <= R) by apply Z.sqrt_nonneg.
  assert (RB : B <= R). { assert (BB : 0 <= B * B) by (apply Z.mul_nonneg_nonneg; exact B0). apply (proj1 (Z.sqrt_le_square (B * B + t) B ltac:(lia) B0)). lia. }
  pose proof (Z.div_mod (R - B) N ltac:(lia)) as D. pose proof (Z.mod_pos_bound (R - B) N N0) as M.
  assert (X0 : 0 <= (R - B) / N) by (apply Z.div_pos; lia). set (x := (R - B) / N) in *.
  exists x. split; [exact X0 |]. split.
  - apply Q; [exact X0 |]. rewrite V. assert (B + N * x <= R) by lia. assert (0 <= N * x) by (apply Z.mul_nonneg_nonneg; lia).
    apply Z.le_trans with (R * R); [apply Z.mul_le_mono_nonneg; lia | exact (proj1 S)].
  - apply Z.nle_gt. rewrite Q by lia. rewrite V. apply Z.lt_nge.
    assert (R + 1 <= B + N * (x + 1)) by lia.
    apply Z.lt_le_trans with ((R + 1) * (R + 1)); [exact (proj2 S) | apply Z.mul_le_mono_nonneg; lia].
Qed.

(** A convex function grows faster further out. *)
Lemma cost2_convex c x y d d' : linear_pos c -> 0 <= x <= y -> 0 <= d <= d' -> cost2 c (x + d) - cost2 c x <= cost2 c (y + d') - cost2 c y.
Proof.
  intros Hp Hx Hd. pose proof Hp as ((_ & _ & Y & _) & P1 & P2 & P3). unfold is_u64 in Y. pose proof ONE_pos as HO.
  assert (N0 : 0 < slope_num c * price_den c) by (apply Z.mul_pos_pos; lia).
  assert (B0 : 0 <= 2 * slope_den c * price_num c * ONE) by (repeat apply Z.mul_nonneg_nonneg; lia).
  assert (E : forall x d, cost2 c (x + d) - cost2 c x = slope_num c * price_den c * (d * (2 * x + d)) + 2 * slope_den c * price_num c * ONE * d)
    by (intros; unfold cost2; ring).
  rewrite !E. apply Z.add_le_mono; apply Z.mul_le_mono_nonneg_l; try lia. apply Z.mul_le_mono_nonneg; lia.
Qed.

(** What the tokens bought cost on the curve: no less than the offer but for a token and the blur ... *)
Lemma bought_least c X g s a dest t x : linear_wf c -> blur c X g -> is_u64 s -> is_u64 a -> is_u64 dest ->
  linear_swap c s a dest AtoB = Val (t, x) -> x <= dest -> cost2_den c * (a + s) < cost2 c X ->
  x = dest \/ exists p, 0 <= p /\ cost2 c p <= cost2_den c * a /\ cost2_den c * (a + s) < cost2 c (p + (x + 1) * ONE + g + 1).
Proof.
  intros Hc HB Hs Ha Hd H Lx HX. pose proof (linear_swap_bounds _ _ _ _ _ _ _ Hc Hs Ha Hd H) as (_ & Bx & _).
  apply linear_swap_a_to_b in H; try assumption. destruct H as (Hp & _ & X0 & b0 & Hb0 & [(E & _) | (_ & _ & b1 & Hb1 & Lb & E & _)]).
  - left. exact E.
  - right. unfold is_u64, u64_max in Ha, Hs. destruct (position_floor c a Hp ltac:(lia)) as (p & P0 & P1 & P2).
    exists p. split; [exact P0 |]. split; [exact P1 |].
    pose proof (position_above c a b0 (p + 1) Hp ltac:(unfold is_u64, u64_max; lia) Hb0 ltac:(lia) ltac:(unfold cost2_den in P2; lia)) as K.
    pose proof ONE_pos as HO. pose proof (Z.div_mod (b1 - b0) ONE ltac:(lia)) as D. pose proof (Z.mod_pos_bound (b1 - b0) ONE HO) as M.
    assert (G0 : 0 <= g).
    { destruct HB as (HX0 & HB). pose proof Hp as ((_ & _ & Y & _) & Q1 & Q2 & Q3). unfold is_u64 in Y.
      assert (0 <= price_num c * slope_den c * 10 ^ 18) by (repeat apply Z.mul_nonneg_nonneg; lia).
      assert (0 <= slope_num c * price_den c * X) by (repeat apply Z.mul_nonneg_nonneg; lia).
      assert (0 <= 1414213566 * slope_den c * price_den c) by (repeat apply Z.mul_nonneg_nonneg; lia).
      assert (0 <= slope_num c * price_den c * g) by lia. assert (0 < slope_num c * price_den c) by (apply Z.mul_pos_pos; lia). nia. }
    assert (Ux : is_u64 x) by (unfold is_u64 in *; lia).
    replace (p + (x + 1) * ONE + g + 1) with (p + 1 + x * ONE + ONE + g) by ring.
    destruct (Z.le_gt_cases (p + 1 + x * ONE + ONE + g) X) as [L | G].
    + eapply (blur_below c X g (a + s) b1 _ b0 (p + 1) x Hp HB ltac:(lia) Hb1); [| lia | exact Ux | reflexivity | exact K | lia].
      split; [| exact L]. unfold is_u64 in Ux. nia.
    + eapply Z.lt_le_trans; [exact HX |]. apply cost2_mono; [exact Hp |]. destruct HB as (HX0 & _). lia.
Qed.

(** ... and no more but for two units and the rounding of a quotient. *)
Lemma bought_most c u T s a dest t x : linear_wf c -> linear_validate c = Ok tt -> one_unit c u -> 0 < T -> slope_den c <= slope_num c * T ->
  is_u64 s -> is_u64 a -> is_u64 dest -> linear_swap c s a dest AtoB = Val (t, x) ->
  exists y q, 0 <= q /\ cost2_den c * a <= cost2 c y /\ cost2 c q <= cost2_den c * (a + s) /\ x * ONE <= q - y + T + 2 * u + 1 /\ 0 <= y.
Proof.
  intros Hc Hv HU HT HS Hs Ha Hd H. pose proof (linear_swap_bounds _ _ _ _ _ _ _ Hc Hs Ha Hd H) as (_ & Bx & _).
  apply linear_swap_a_to_b in H; try assumption. destruct H as (Hp & _ & X0 & b0 & Hb0 & H).
  unfold is_u64, u64_max in Ha, Hs. pose proof (cost2_den_pos c Hp) as HD. pose proof ONE_pos as HO.
  pose proof (up_unit c a b0 Hc Hv ltac:(lia) Hb0) as UU. pose proof (b_up_bounds c a b0 Hp ltac:(lia) Hb0) as BB.
  destruct (one_unit_cost c u HU) as (U0 & U1).
  exists (b0 + 1 + u).
  assert (Y : cost2_den c * a <= cost2 c (b0 + 1 + u)).
  { pose proof (cost2_super c (b0 + 1) u Hp ltac:(lia) U0). lia. }
  destruct H as [(E & Lt & SO) | (_ & _ & b1 & Hb1 & Lb & E & _)].
  - destruct SO as (_ & SO & _). subst x.
    assert (F : area c (b0 + dest * ONE) <= (a + s) * ONE + HALF).
    { pose proof HALF_ONE as HH. pose proof (Z.mul_le_mono_nonneg_r t s ONE ltac:(lia) ltac:(lia)) as Ts. clear - SO Ts HH. lia. }
    assert (P0 : 0 <= b0 + dest * ONE) by (unfold is_u64 in Hd; nia).
    pose proof (near_cost c (b0 + dest * ONE) (a + s) HALF Hp P0 F ltac:(unfold HALF; lia)) as Nc.
    exists (Z.max 0 (b0 + dest * ONE - u)). split; [lia |]. split; [exact Y |]. split; [| split; lia].
    destruct (Z.le_gt_cases (b0 + dest * ONE) u) as [L | G].
    + rewrite Z.max_l, cost2_0 by lia. apply Z.mul_nonneg_nonneg; lia.
    + rewrite Z.max_r by lia. pose proof (cost2_super c (b0 + dest * ONE - u) u Hp ltac:(lia) U0) as S.
      replace (b0 + dest * ONE - u + u) with (b0 + dest * ONE) in S by ring. lia.
  - pose proof (down_within c T (a + s) b1 Hp HT HS ltac:(lia) Hb1) as Dn.
    exists (Z.max 0 (b1 - T)). split; [lia |]. split; [exact Y |]. split; [exact Dn |].
    pose proof (Z.div_mod (b1 - b0) ONE ltac:(lia)) as D. pose proof (Z.mod_pos_bound (b1 - b0) ONE HO) as M. split; lia.
Qed.

Lemma later_buyer c X g u T s a a' dest dest' t x t' x' : linear_wf c -> linear_validate c = Ok tt ->
  blur c X g -> one_unit c u -> 0 < T -> slope_den c <= slope_num c * T ->
  is_u64 s -> is_u64 a -> is_u64 a' -> is_u64 dest -> is_u64 dest' -> a <= a' -> dest' <= dest ->
  linear_swap c s a dest AtoB = Val (t, x) -> x <= dest -> linear_swap c s a' dest' AtoB = Val (t', x') -> x' <= dest' ->
  cost2_den c * (a + s) < cost2 c X ->
  x' <= x \/ (x' - x - 1) * ONE < g + T + 2 * u + 2.
Proof.
  intros Hc Hv HB HU HT HS Hs Ha Ha' Hd Hd' La Ld H Lx H' Lx' HX. pose proof (validated_pos c Hc Hv) as Hp. pose proof ONE_pos as HO.
  pose proof (linear_swap_bounds _ _ _ _ _ _ _ Hc Hs Ha Hd H) as (_ & Bx & _).
  pose proof (linear_swap_bounds _ _ _ _ _ _ _ Hc Hs Ha' Hd' H') as (_ & Bx' & _).
  destruct (bought_least c X g s a dest t x Hc HB Hs Ha Hd H Lx HX) as [E | (p & P0 & P1 & P2)]; [left; lia |].
  destruct (bought_most c u T s a' dest' t' x' Hc Hv HU HT HS Hs Ha' Hd' H') as (y & q & Q0 & Y1 & Q1 & L & Y0).
  destruct (Z.lt_ge_cases ((x' - x - 1) * ONE) (g + T + 2 * u + 2)) as [G | G]; [right; exact G | left; exfalso].
  pose proof (cost2_den_pos c Hp) as HD.
  assert (PY : p <= y).
  { destruct (Z.le_gt_cases p y) as [K | K]; [exact K | exfalso].
    assert (cost2 c y < cost2 c p).
    { pose proof (cost2_super c y (p - y) Hp Y0 ltac:(lia)) as S. replace (y + (p - y)) with p in S by ring.
      assert (0 < cost2 c (p - y)); [| lia]. pose proof Hp as ((_ & _ & Yy & _) & Z1 & Z2 & Z3). unfold is_u64 in Yy.
      unfold cost2. assert (0 < slope_num c * price_den c * (p - y) * (p - y)) by (repeat apply Z.mul_pos_pos; lia).
      assert (0 <= 2 * slope_den c * price_num c * (p - y) * ONE) by (repeat apply Z.mul_nonneg_nonneg; lia). lia. }
    assert (cost2_den c * a <= cost2_den c * a') by (apply Z.mul_le_mono_nonneg_l; lia). lia. }
  assert (D1 : (x + 1) * ONE + g + 1 <= q - y) by lia.
  assert (G0 : 0 <= (x + 1) * ONE + g + 1).
  { destruct HB as (HX0 & HB). pose proof Hp as ((_ & _ & Yy & _) & Z1 & Z2 & Z3). unfold is_u64 in Yy.
    assert (0 <= price_num c * slope_den c * 10 ^ 18) by (repeat apply Z.mul_nonneg_nonneg; lia).
    assert (0 <= slope_num c * price_den c * X) by (repeat apply Z.mul_nonneg_nonneg; lia).
    assert (0 <= 1414213566 * slope_den c * price_den c) by (repeat apply Z.mul_nonneg_nonneg; lia).
    assert (Gg : 0 <= slope_num c * price_den c * g) by lia. assert (0 < slope_num c * price_den c) by (apply Z.mul_pos_pos; lia).
    assert (0 <= g) by (clear - Gg H2 H3; nia). lia. }
  pose proof (cost2_convex c p y ((x + 1) * ONE + g + 1) (q - y) Hp ltac:(lia) ltac:(lia)) as V.
  replace (p + ((x + 1) * ONE + g + 1)) with (p + (x + 1) * ONE + g + 1) in V by ring. replace (y + (q - y)) with q in V by ring.
  assert (cost2_den c * (a + s) - cost2_den c * a = cost2_den c * (a' + s) - cost2_den c * a') by ring. lia.
Qed.

(** In terms of swaps; the rounding of the quotient is a small part of the blur. *)
Lemma later_swap c f X g u s a a' dest dest' r r' : linear_wf c -> linear_validate c = Ok tt -> feeless f ->
  blur c X g -> one_unit c u ->
  is_u64 s -> is_u64 a -> is_u64 a' -> is_u64 dest -> is_u64 dest' -> a <= a' -> dest' <= dest ->
  curve_swap (LinearPrice c) s a dest AtoB f = Val r -> curve_swap (LinearPrice c) s a' dest' AtoB f = Val r' ->
  cost2_den c * (a + s) < cost2 c X ->
  let n := destination_amount_swapped r in let n' := destination_amount_swapped r' in
  (n' <= n \/ (n' - n - 1) * ONE < g + g / 10 ^ 9 + 2 * u + 3) /\ (g + g / 10 ^ 9 + 2 * u + 3 <= ONE -> n' <= n + 1).
Proof.
  intros Hc Hv Hf HB HU Hs Ha Ha' Hd Hd' La Ld H H' HX n n'. pose proof (validated_pos c Hc Hv) as Hp.
  apply feeless_swap in H; try assumption. destruct H as (H & _ & _ & D & _).
  apply feeless_swap in H'; try assumption. destruct H' as (H' & _ & _ & D' & _).
  cbn [swap_without_fees] in H, H'. fold n in H, D. fold n' in H', D'.
  assert (HS : 0 <= g /\ slope_den c <= slope_num c * (g / 10 ^ 9 + 1)).
  { destruct HB as (HX0 & HB). pose proof Hp as ((_ & _ & Yy & _) & Z1 & Z2 & Z3). unfold is_u64 in Yy.
    assert (0 <= price_num c * slope_den c * 10 ^ 18) by (repeat apply Z.mul_nonneg_nonneg; lia).
    assert (0 <= slope_num c * price_den c * X) by (repeat apply Z.mul_nonneg_nonneg; lia).
    assert (G1 : price_den c * (1414213566 * slope_den c) <= price_den c * (slope_num c * g)).
    { replace (price_den c * (1414213566 * slope_den c)) with (1414213566 * slope_den c * price_den c) by ring.
      replace (price_den c * (slope_num c * g)) with (slope_num c * price_den c * g) by ring. lia. }
    apply Z.mul_le_mono_pos_l in G1; [| exact Z3].
    pose proof (Z.div_mod g (10 ^ 9) ltac:(lia)) as Dv. pose proof (Z.mod_pos_bound g (10 ^ 9) ltac:(lia)) as Mv.
    set (k := g / 10 ^ 9) in *. clearbody k.
    assert (slope_num c * g <= slope_num c * (10 ^ 9 * (k + 1))) by (apply Z.mul_le_mono_nonneg_l; lia).
    split; [clear - G1 Z1 Z2; nia | lia]. }
  destruct HS as (G0 & HS). pose proof (Z.div_pos g (10 ^ 9) G0 ltac:(lia)) as K0.
  pose proof (later_buyer c X g u (g / 10 ^ 9 + 1) s a a' dest dest' _ n _ n' Hc Hv HB HU ltac:(lia) HS Hs Ha Ha' Hd Hd' La Ld H ltac:(lia) H' ltac:(lia) HX) as L.
  split; [destruct L as [L | L]; [left | right]; lia |].
  intros S. destruct L as [L | L]; [lia |]. pose proof ONE_pos. nia.
Qed.

(** On the ledger: two purchases for the same offer from the same pool, in any two ledgers. *)
Lemma later_ledger e k s c X g u sg1 sg2 acc1 acc2 n m1 m2 w1 w2 w1' w2' : env_ok e -> reachable e w1 -> reachable e w2 ->
  pool_at w1 k s -> pool_at w2 k s -> st_curve s = LinearPrice c -> blur c X g -> one_unit c u ->
  nth 0 acc1 0 = k -> nth 0 acc2 0 = k -> nth 4 acc1 0 = st_token_a s -> nth 4 acc2 0 = st_token_a s ->
  exec e sg1 w1 (Swap acc1 n m1) = Ok w1' -> exec e sg2 w2 (Swap acc2 n m2) = Ok w2' ->
  balance w1 (st_token_a s) <= balance w2 (st_token_a s) -> balance w2 (st_token_b s) <= balance w1 (st_token_b s) ->
  cost2_den c * (balance w1 (st_token_a s) + n) < cost2 c X ->
  let x := balance w1 (st_token_b s) - balance w1' (st_token_b s) in
  let x' := balance w2 (st_token_b s) - balance w2' (st_token_b s) in
  (x' <= x \/ (x' - x - 1) * ONE < g + g / 10 ^ 9 + 2 * u + 3) /\ (g + g / 10 ^ 9 + 2 * u + 3 <= ONE -> x' <= x + 1).
Proof.
  intros He R1 R2 P1 P2 Hl HB HU K1 K2 D1 D2 X1 X2 L Lb HX x x'.
  pose proof (reachable_inv _ _ He R1) as I1. pose proof (reachable_inv _ _ He R2) as I2.
  pose proof (linear_config _ _ _ _ _ (proj2 I1 _ _ P1) Hl) as (Hf & _).
  pose proof (linear_valid _ _ _ _ _ (proj2 I1 _ _ P1) Hl) as (Hc & Hv).
  pose proof (swap_vaults_at _ _ _ _ _ _ _ _ I1 X1 ltac:(rewrite K1; exact P1)) as S1.
  pose proof (swap_vaults_at _ _ _ _ _ _ _ _ I2 X2 ltac:(rewrite K2; exact P2)) as S2.
  cbv zeta in S1, S2. apply Z.eqb_eq in D1, D2. rewrite D1 in S1. rewrite D2 in S2. rewrite Hl in S1, S2. cbn [side_a side_b] in S1, S2.
  destruct S1 as (r1 & q1 & Un & C1 & _ & _ & _ & V1 & _). destruct S2 as (r2 & q2 & _ & C2 & _ & _ & _ & V2 & _).
  rewrite Hf in C1, C2.
  assert (U : forall w v, inv e w -> is_u64 (balance w v)) by (intros w v I; apply balance_u64; apply I).
  pose proof (later_swap c linear_fees X g u n _ _ _ _ r1 r2 Hc Hv linear_feeless HB HU Un (U _ _ I1) (U _ _ I2) (U _ _ I1) (U _ _ I2) L Lb C1 C2 HX) as Q.
  cbv zeta in Q.
  apply (feeless_swap _ _ _ _ _ _ _ linear_feeless Un) in C1.
  apply (feeless_swap _ _ _ _ _ _ _ linear_feeless Un) in C2.
  destruct C1 as (_ & _ & _ & _ & _ & N1 & _). destruct C2 as (_ & _ & _ & _ & _ & N2 & _).
  replace x with (destination_amount_swapped r1) by (unfold x; lia). replace x' with (destination_amount_swapped r2) by (unfold x'; lia).
  exact Q.
Qed.

(** The same offer twice: 7031250 tokens the first time, 7421875 the second. *)
Lemma later_more : exists c s a dest r r', linear_wf c /\ linear_validate c = Ok tt /\ is_u64 s /\ is_u64 a /\ is_u64 dest /\
  curve_swap (LinearPrice c) s a dest AtoB no_fees = Val r /\
  curve_swap (LinearPrice c) s (new_swap_source_amount r) (new_swap_destination_amount r) AtoB no_fees = Val r' /\
  source_amount_swapped r = s /\ source_amount_swapped r' = s /\
  20 * destination_amount_swapped r' > 21 * destination_amount_swapped r.
Proof.
  exists (mk_linear 5 (10 ^ 18) 2 410), 36885, 1, (10 ^ 9),
    (mk_swap_result 36886 992968750 36885 7031250 0 0), (mk_swap_result 73771 985546875 36885 7421875 0 0).
  split; [vm_compute; intuition congruence |]. vm_compute. intuition congruence.
Qed.

(** ** Sales *)
Lemma cost2_inv c x y : linear_pos c -> 0 <= x -> 0 <= y -> cost2 c x < cost2 c y -> x < y.
Proof.
  intros Hp Hx Hy H. destruct (Z.lt_ge_cases x y) as [L | G]; [exact L | exfalso].
  pose proof (cost2_mono c y x Hp ltac:(lia)). lia.
Qed.

(** What a sale leaves costs little more than it would on the curve ... *)
Lemma sold_most c n ss a t x : linear_wf c -> is_u64 n -> is_u64 ss -> is_u64 a ->
  linear_swap c n ss a BtoA = Val (t, x) ->
  exists b0 e, b_up c a = Val b0 /\ 0 <= e /\ b0 - n * ONE <= e /\ 0 < x /\
    cost2 c e + cost2_den c * x <= cost2_den c * a + 2 * (cost_den c * ONE).
Proof.
  intros Hc Hn Hs Ha H. apply linear_swap_b_to_a in H; try assumption. destruct H as (Hp & T0 & X0 & b0 & Hb & H).
  pose proof (cden_pos c Hp) as HG. pose proof ONE_pos as HO.
  exists b0. destruct H as [(N & T & E) | (N & T & A & P & _ & E)].
  - exists 0. subst x. rewrite cost2_0. repeat split; try assumption; lia.
  - exists (end_position b0 n * ONE). pose proof (cdivup_spec (b0 - n * ONE) ONE HO) as Dv. fold (end_position b0 n) in Dv.
    split; [exact Hb |]. split; [lia |]. split; [lia |]. split; [lia |].
    set (e := end_position b0 n * ONE) in *. clearbody e.
    pose proof (Z.mul_div_le (a * ONE - area c e) ONE HO) as M. rewrite <- E in M.
    pose proof (area_near c e (a * ONE - ONE * x) Hp ltac:(lia) ltac:(lia)) as K. rewrite cost2_den_eq.
    replace (cost_den c * ONE * (a * ONE - ONE * x)) with (cost_den c * ONE * ONE * a - cost_den c * ONE * ONE * x) in K by ring. lia.
Qed.

(** ... and little less, unless the sale takes the whole reserve. *)
Lemma sold_least c n ss a t x : linear_wf c -> is_u64 n -> is_u64 ss -> is_u64 a ->
  linear_swap c n ss a BtoA = Val (t, x) ->
  x = a \/ exists b0 e, b_up c a = Val b0 /\ 0 <= e /\ e < b0 - n * ONE + ONE /\
    cost2_den c * a < cost2 c e + cost2_den c * (x + 1) + price_den c * HALF.
Proof.
  intros Hc Hn Hs Ha H. apply linear_swap_b_to_a in H; try assumption. destruct H as (Hp & T0 & X0 & b0 & Hb & H).
  pose proof (cden_pos c Hp) as HG. pose proof ONE_pos as HO.
  destruct H as [(N & T & E) | (N & T & A & P & _ & E)]; [left; exact E | right].
  exists b0, (end_position b0 n * ONE). pose proof (cdivup_spec (b0 - n * ONE) ONE HO) as Dv. fold (end_position b0 n) in Dv.
  split; [exact Hb |]. split; [lia |]. split; [lia |].
  set (e := end_position b0 n * ONE) in *. clearbody e.
  pose proof (Z.mul_succ_div_gt (a * ONE - area c e) ONE HO) as M. rewrite <- E in M.
  destruct (area_exact c e Hp ltac:(lia)) as [K _]. rewrite cost2_den_eq.
  replace (2 * ONE * slope_den c * price_den c * area c e) with (cost_den c * ONE * area c e) in K by (unfold cost_den; ring).
  assert (Q : cost_den c * ONE * (a * ONE - area c e) < cost_den c * ONE * (ONE * Z.succ x)) by (apply Z.mul_lt_mono_pos_l; assumption).
  unfold Z.succ in Q. rewrite Z.mul_sub_distr_l in Q.
  replace (cost_den c * ONE * (a * ONE)) with (cost_den c * ONE * ONE * a) in Q by ring.
  replace (cost_den c * ONE * (ONE * (x + 1))) with (cost_den c * ONE * ONE * (x + 1)) in Q by ring. lia.
Qed.

Lemma later_seller c X g u n n' ss ss' a a' t x t' x' : linear_wf c -> linear_validate c = Ok tt -> blur c X g -> one_unit c u ->
  is_u64 n -> is_u64 n' -> is_u64 ss -> is_u64 ss' -> is_u64 a -> is_u64 a' -> a <= a' ->
  linear_swap c n ss a BtoA = Val (t, x) -> linear_swap c n' ss' a' BtoA = Val (t', x') ->
  cost2_den c * a' < cost2 c X -> g + u + 3 <= (n' - n - 1) * ONE -> x <= x' + 1.
Proof.
  intros Hc Hv HB HU Hn Hn' Hs Hs' Ha Ha' La H H' HX Hm. pose proof (validated_pos c Hc Hv) as Hp. pose proof ONE_pos as HO.
  pose proof (linear_swap_bounds _ _ _ _ _ _ _ Hc Hn Hs Ha H) as (_ & _ & Bx). specialize (Bx eq_refl).
  destruct (sold_most c n ss a t x Hc Hn Hs Ha H) as (b0 & e & Hb & E0 & E1 & X0 & E2).
  destruct (sold_least c n' ss' a' t' x' Hc Hn' Hs' Ha' H') as [E | (b0' & e' & Hb' & E0' & E1' & E2')]; [lia |].
  pose proof (cost2_den_pos c Hp) as HD. destruct (one_unit_cost c u HU) as (U0 & U1).
  assert (G2 : 4 * (cost_den c * ONE) <= cost2_den c).
  { rewrite cost2_den_eq. pose proof (cden_pos c Hp) as HG. assert (4 <= ONE) by (vm_compute; discriminate). nia. }
  assert (G3 : 2 * (price_den c * HALF) <= cost_den c * ONE).
  { pose proof HALF_ONE as HH. destruct Hp as (_ & P1 & P2 & P3). unfold cost_den. rewrite <- HH.
    replace (2 * (price_den c * HALF)) with (1 * (2 * price_den c * HALF)) by ring.
    replace (2 * slope_den c * price_den c * (2 * HALF)) with (2 * slope_den c * (2 * price_den c * HALF)) by ring.
    apply Z.mul_le_mono_nonneg_r; [unfold HALF; lia | lia]. }
  unfold is_u64, u64_max in Ha, Ha', Hn, Hn'.
  destruct (position_floor c a Hp ltac:(lia)) as (p & P0 & P1 & P2).
  destruct (position_floor c a' Hp ltac:(lia)) as (p' & P0' & P1' & P2').
  assert (L1 : p <= b0 + 1 + u).
  { pose proof (up_unit c a b0 Hc Hv ltac:(lia) Hb) as UU. pose proof (b_up_bounds c a b0 Hp ltac:(lia) Hb) as BB.
    pose proof (cost2_super c (b0 + 1) u Hp ltac:(lia) U0) as SS.
    destruct (Z.le_gt_cases p (b0 + 1 + u)) as [K | K]; [exact K | exfalso].
    assert (cost2 c (b0 + 1 + u + 1) <= cost2 c p) by (apply cost2_mono; [exact Hp | lia]).
    assert (cost2 c (b0 + 1 + u) < cost2 c (b0 + 1 + u + 1)); [| lia].
    pose proof (cost2_super c (b0 + 1 + u) 1 Hp ltac:(lia) ltac:(lia)) as S1.
    assert (0 < cost2 c 1); [| lia]. destruct Hp as ((_ & _ & Yy & _) & Z1 & Z2 & Z3). unfold is_u64 in Yy.
    unfold cost2. assert (0 < slope_num c * price_den c) by (apply Z.mul_pos_pos; lia).
    assert (0 <= 2 * slope_den c * price_num c * 1 * ONE) by (repeat apply Z.mul_nonneg_nonneg; lia). lia. }
  assert (L2 : b0' <= p' + 1 + g).
  { apply (blur_above c X g a' b0' (p' + 1) Hp HB ltac:(unfold is_u64, u64_max; lia) Hb'); [| lia].
    split; [lia |]. destruct HB as (X1 & _). pose proof (cost2_inv c p' X Hp P0' X1 ltac:(lia)). lia. }
  assert (PP : p <= p').
  { assert (cost2_den c * a <= cost2_den c * a') by (apply Z.mul_le_mono_nonneg_l; lia).
    pose proof (cost2_inv c p (p' + 1) Hp P0 ltac:(lia) ltac:(lia)). lia. }
  assert (EP : e <= p).
  { assert (cost2_den c * 1 <= cost2_den c * x) by (apply Z.mul_le_mono_nonneg_l; lia).
    pose proof (cost2_inv c e (p + 1) Hp E0 ltac:(lia) ltac:(lia)). lia. }
  assert (DD : cost2 c e' - cost2 c e <= cost2_den c * a' - cost2_den c * a).
  { assert (cost2_den c * a <= cost2_den c * a') by (apply Z.mul_le_mono_nonneg_l; lia).
    destruct (Z.le_gt_cases e' e) as [K | K].
    - pose proof (cost2_mono c e' e Hp ltac:(lia)). lia.
    - pose proof (cost2_convex c e (p + 1) (e' - e) (p' - (p + 1)) Hp ltac:(lia) ltac:(lia)) as V.
      replace (e + (e' - e)) with e' in V by ring. replace (p + 1 + (p' - (p + 1))) with p' in V by ring. lia. }
  assert (F : cost2_den c * x < cost2_den c * (x' + 2)) by lia.
  apply Z.mul_lt_mono_pos_l in F; [lia | exact HD].
Qed.

Lemma later_sale c f X g u n n' ss ss' a a' r r' : linear_wf c -> linear_validate c = Ok tt -> feeless f ->
  blur c X g -> one_unit c u ->
  is_u64 n -> is_u64 n' -> is_u64 ss -> is_u64 ss' -> is_u64 a -> is_u64 a' -> a <= a' ->
  curve_swap (LinearPrice c) n ss a BtoA f = Val r -> curve_swap (LinearPrice c) n' ss' a' BtoA f = Val r' ->
  cost2_den c * a' < cost2 c X -> g + u + 3 <= (n' - n - 1) * ONE ->
  destination_amount_swapped r <= destination_amount_swapped r' + 1.
Proof.
  intros Hc Hv Hf HB HU Hn Hn' Hs Hs' Ha Ha' La H H' HX Hm.
  apply feeless_swap in H; try assumption. apply feeless_swap in H'; try assumption.
  destruct H as (H & _). destruct H' as (H' & _). cbn [swap_without_fees] in H, H'.
  exact (later_seller c X g u n n' ss ss' a a' _ _ _ _ Hc Hv HB HU Hn Hn' Hs Hs' Ha Ha' La H H' HX Hm).
Qed.

Lemma later_sale_ledger e k s c X g u sg1 sg2 acc1 acc2 n n' m1 m2 w1 w2 w1' w2' : env_ok e -> reachable e w1 -> reachable e w2 ->
  pool_at w1 k s -> pool_at w2 k s -> st_curve s = LinearPrice c -> blur c X g -> one_unit c u ->
  nth 0 acc1 0 = k -> nth 0 acc2 0 = k -> nth 4 acc1 0 <> st_token_a s -> nth 4 acc2 0 <> st_token_a s ->
  exec e sg1 w1 (Swap acc1 n m1) = Ok w1' -> exec e sg2 w2 (Swap acc2 n' m2) = Ok w2' ->
  balance w1 (st_token_a s) <= balance w2 (st_token_a s) ->
  cost2_den c * balance w2 (st_token_a s) < cost2 c X -> g + u + 3 <= (n' - n - 1) * ONE ->
  balance w1 (st_token_a s) - balance w1' (st_token_a s) <= balance w2 (st_token_a s) - balance w2' (st_token_a s) + 1.
Proof.
  intros He R1 R2 P1 P2 Hl HB HU K1 K2 D1 D2 X1 X2 L HX Hm.
  pose proof (reachable_inv _ _ He R1) as I1. pose proof (reachable_inv _ _ He R2) as I2.
  pose proof (linear_config _ _ _ _ _ (proj2 I1 _ _ P1) Hl) as (Hf & _).
  pose proof (linear_valid _ _ _ _ _ (proj2 I1 _ _ P1) Hl) as (Hc & Hv).
  pose proof (swap_vaults_at _ _ _ _ _ _ _ _ I1 X1 ltac:(rewrite K1; exact P1)) as S1.
  pose proof (swap_vaults_at _ _ _ _ _ _ _ _ I2 X2 ltac:(rewrite K2; exact P2)) as S2.
  cbv zeta in S1, S2. apply Z.eqb_neq in D1, D2. rewrite D1 in S1. rewrite D2 in S2. rewrite Hl in S1, S2. cbn [side_a side_b] in S1, S2.
  destruct S1 as (r1 & q1 & Un & C1 & _ & _ & V1 & _). destruct S2 as (r2 & q2 & Un' & C2 & _ & _ & V2 & _).
  rewrite Hf in C1, C2.
  assert (U : forall w v, inv e w -> is_u64 (balance w v)) by (intros w v I; apply balance_u64; apply I).
  pose proof (later_sale c linear_fees X g u n n' _ _ _ _ r1 r2 Hc Hv linear_feeless HB HU Un Un' (U _ _ I1) (U _ _ I2) (U _ _ I1) (U _ _ I2) L C1 C2 HX Hm) as Q.
  apply (feeless_swap _ _ _ _ _ _ _ linear_feeless Un) in C1. apply (feeless_swap _ _ _ _ _ _ _ linear_feeless Un') in C2.
  destruct C1 as (_ & _ & _ & _ & _ & N1 & _). destruct C2 as (_ & _ & _ & _ & _ & N2 & _).
  rewrite V1, V2, N1, N2. lia.
Qed.

(** Eight tokens: 11187 units from a pool with 9784601, 9790 if it has one unit more. *)
Lemma later_less : exists c n ss a r r', linear_wf c /\ linear_validate c = Ok tt /\ is_u64 n /\ is_u64 ss /\ is_u64 a /\ is_u64 (a + 1) /\
  curve_swap (LinearPrice c) n ss a BtoA no_fees = Val r /\ curve_swap (LinearPrice c) n ss (a + 1) BtoA no_fees = Val r' /\
  source_amount_swapped r = n /\ source_amount_swapped r' = n /\
  destination_amount_swapped r = 11187 /\ destination_amount_swapped r' = 9790.
Proof.
  exists (mk_linear 1 10 1 1), 8, 0, 9784601, (mk_swap_result 8 9773414 8 11187 0 0), (mk_swap_result 8 9774812 8 9790 0 0).
  split; [vm_compute; intuition congruence |]. vm_compute. intuition congruence.
Qed.
