(** How much collateral a linear pool can hold (C110). *)
From Verif Require Import Ints Tactics DfsPrecise Fees LinearCurve SwapCurve Spec DfsFacts LinearFacts
  SwapFacts LinearExact LinearProps LinearRound LinearHistory LinearBacked LedgerSpec TraceSpec RoundSpec BackFacts
  RedeemFacts OfferFacts LockSpec.

Lemma price_at_sq c x : price_num_at c x * price_num_at c x =
  price_num c * slope_den c * ONE * (price_num c * slope_den c * ONE) + slope_num c * price_den c * cost2 c x.
Proof. unfold price_num_at, cost2. ring. Qed.

Lemma disc_sq c a : ONE * ONE * slope_den c * exact_disc c a =
  price_num c * slope_den c * ONE * (price_num c * slope_den c * ONE) + slope_num c * price_den c * (cost2_den c * a).
Proof. unfold exact_disc, cost2_den, cost_den. ring. Qed.

Lemma price_at_nonneg c x : linear_pos c -> 0 <= x -> 0 <= price_num_at c x.
Proof.
  intros ((_ & _ & Y & _) & P1 & P2 & P3) Hx. unfold price_num_at, is_u64 in *. pose proof ONE_pos.
  assert (0 <= price_num c * slope_den c * ONE) by (repeat apply Z.mul_nonneg_nonneg; lia).
  assert (0 <= slope_num c * price_den c * x) by (repeat apply Z.mul_nonneg_nonneg; lia). lia.
Qed.

(** The estimated position falls short of the exact one by as little. *)
Lemma position_below c a b1 x : linear_pos c -> 0 <= a < 2 ^ 65 -> b_down c a = Val b1 -> 0 <= x ->
  cost2 c x <= cost2_den c * a ->
  2 ^ 31 * (price_num_at c x - LinearProps.slack c) <
  (price_num_at c (b1 + 1) + slope_den c * price_den c) * (2 ^ 31 + 1).
Proof.
  intros Hp Ha Hb Hx Hcost. apply b_value_val in Hb; [| assumption | lia]. destruct Hb as (r & R & -> & Hr & Hb0).
  pose proof (disc_bounds c a Hp ltac:(lia)) as D.
  assert (U : is_u256 (disc c a)) by (unfold is_u256, u256_max; lia).
  destruct (dfs_sqrt_down_spec _ _ U R) as (_ & _ & S3).
  pose proof (down_price c a r Hp ltac:(lia) ltac:(lia) S3) as X. cbv zeta in X.
  pose proof (slack_sq c Hp) as HW. pose proof (price_at_sq c x) as PS. pose proof (disc_sq c a) as DS.
  pose proof (price_at_nonneg c x Hp Hx) as PX. pose proof (price_at_nonneg c (b_of_root c r + 1) Hp ltac:(lia)) as PB.
  assert (Hw : 0 <= LinearProps.slack c).
  { destruct Hp as (_ & P1 & P2 & P3). unfold LinearProps.slack. repeat apply Z.mul_nonneg_nonneg; lia. }
  assert (SP : slope_num c * price_den c * cost2 c x <= slope_num c * price_den c * (cost2_den c * a)).
  { destruct Hp as (_ & P1 & P2 & P3). apply Z.mul_le_mono_nonneg_l; [apply Z.mul_nonneg_nonneg; lia | exact Hcost]. }
  assert (SD : 0 < slope_den c * price_den c) by (destruct Hp as (_ & P1 & P2 & P3); apply Z.mul_pos_pos; lia).
  set (bd := price_num_at c (b_of_root c r + 1) + slope_den c * price_den c) in *.
  assert (Hbd : 0 < bd) by (unfold bd; lia).
  set (p1 := price_num_at c x) in *. set (w := LinearProps.slack c) in *.
  set (K := 2 ^ 31) in *. assert (HK : 1 < K) by (subst K; reflexivity). clearbody K.
  assert (Hbk : 0 < bd * (K + 1)) by (apply Z.mul_pos_pos; lia).
  destruct (sq_diff p1 w Hw) as [Hle | Hsq].
  - assert (K * (p1 - w) <= 0) by (apply Z.mul_nonneg_nonpos; lia). lia.
  - apply sq_lt_inv; [lia |].
    eapply Z.le_lt_trans; [| exact X].
    replace (K * (p1 - w) * (K * (p1 - w))) with (K * K * ((p1 - w) * (p1 - w))) by ring.
    replace (ONE * (K * K) * slope_den c * (exact_disc c a * ONE - 2 * price_den c * price_den c * slope_den c))
      with (K * K * (ONE * ONE * slope_den c * exact_disc c a - 2 * ONE * (slope_den c * price_den c) * (slope_den c * price_den c))) by ring.
    apply Z.mul_le_mono_nonneg_l; [apply Z.mul_nonneg_nonneg; lia | lia].
Qed.

Lemma blur_above c X g a b0 x : linear_pos c -> blur c X g -> is_u64 a -> b_up c a = Val b0 ->
  0 <= x <= X -> cost2_den c * a <= cost2 c x -> b0 <= x + g.
Proof.
  intros Hp HB Ha Hb Hx Hc.
  pose proof (position_above c a b0 x Hp Ha Hb ltac:(lia) ltac:(unfold cost2_den in Hc; lia)) as K.
  destruct HB as [_ HB]. change (10 ^ 18) with ONE in HB. unfold price_num_at in K.
  destruct Hp as ((_ & _ & Y & _) & P1 & P2 & P3). unfold is_u64 in Y. pose proof ONE_pos as HO.
  assert (N : 0 < slope_num c * price_den c) by (apply Z.mul_pos_pos; lia).
  assert (S : 0 < slope_den c * price_den c) by (apply Z.mul_pos_pos; lia).
  assert (B : 0 <= price_num c * slope_den c * ONE) by (repeat apply Z.mul_nonneg_nonneg; lia).
  assert (NX : slope_num c * price_den c * x <= slope_num c * price_den c * X) by (apply Z.mul_le_mono_nonneg_l; lia).
  set (N' := slope_num c * price_den c) in *. set (S' := slope_den c * price_den c) in *.
  set (B' := price_num c * slope_den c * ONE) in *.
  replace (1414213566 * slope_den c * price_den c) with (1414213566 * S') in HB by (unfold S'; ring).
  replace (2 * slope_den c * price_den c) with (2 * S') in K by (unfold S'; ring).
  destruct (Z.le_gt_cases b0 (x + g)) as [L | G]; [exact L | exfalso].
  assert (N' * (x + g) + N' <= N' * b0) by (replace (N' * (x + g) + N') with (N' * (x + g + 1)) by ring; apply Z.mul_le_mono_nonneg_l; lia).
  lia.
Qed.

Lemma blur_below c X g a b1 x b0 x0 n : linear_pos c -> blur c X g -> 0 <= a < 2 ^ 65 -> b_down c a = Val b1 ->
  0 <= x <= X -> 0 <= x0 -> is_u64 n -> x = x0 + n * ONE + ONE + g ->
  (price_num_at c b0 - 2 * slope_den c * price_den c) * (2 ^ 31 - 1) <= 2 ^ 31 * price_num_at c x0 ->
  b1 - b0 < (n + 1) * ONE -> cost2_den c * a < cost2 c x.
Proof.
  intros Hp HB Ha Hb Hx Hx0 Hn E K0 Hn1.
  destruct (Z.lt_ge_cases (cost2_den c * a) (cost2 c x)) as [L | G]; [exact L | exfalso].
  pose proof (position_below c a b1 x Hp Ha Hb ltac:(lia) G) as K1. destruct HB as [_ HB]. change (10 ^ 18) with ONE in HB.
  unfold price_num_at in *. unfold LinearProps.slack in K1.
  destruct Hp as ((_ & _ & Y & _) & P1 & P2 & P3). unfold is_u64 in Y. pose proof ONE_pos as HO.
  assert (N : 0 < slope_num c * price_den c) by (apply Z.mul_pos_pos; lia).
  assert (S : 0 < slope_den c * price_den c) by (apply Z.mul_pos_pos; lia).
  assert (B : 0 <= price_num c * slope_den c * ONE) by (repeat apply Z.mul_nonneg_nonneg; lia).
  assert (NX : slope_num c * price_den c * x <= slope_num c * price_den c * X) by (apply Z.mul_le_mono_nonneg_l; lia).
  set (N' := slope_num c * price_den c) in *. set (S' := slope_den c * price_den c) in *.
  set (B' := price_num c * slope_den c * ONE) in *.
  replace (1414213566 * slope_den c * price_den c) with (1414213566 * S') in HB by (unfold S'; ring).
  replace (1414213563 * slope_den c * price_den c) with (1414213563 * S') in K1 by (unfold S'; ring).
  replace (2 * slope_den c * price_den c) with (2 * S') in K0 by (unfold S'; ring).
  assert (N' * (b1 + 1) <= N' * (b0 + (n + 1) * ONE)) by (apply Z.mul_le_mono_nonneg_l; lia).
  assert (Nx0 : 0 <= N' * x0) by (apply Z.mul_nonneg_nonneg; lia).
  assert (Ng : N' * x = N' * x0 + N' * ((n + 1) * ONE) + N' * g) by (rewrite E; ring).
  assert (Nn : 0 <= N' * ((n + 1) * ONE)) by (unfold is_u64 in Hn; apply Z.mul_nonneg_nonneg; [lia | apply Z.mul_nonneg_nonneg; lia]).
  replace (N' * (b0 + (n + 1) * ONE)) with (N' * b0 + N' * ((n + 1) * ONE)) in * by ring.
  set (q := N' * ((n + 1) * ONE)) in *. set (p0 := N' * x0) in *. set (y := N' * b0) in *. set (z := N' * (b1 + 1)) in *.
  set (gg := N' * g) in *. set (xx := N' * x) in *. set (XX := N' * X) in *.
  clearbody q p0 y z gg xx XX B' S'. clear - K0 K1 HB NX Ng Nn Nx0 B S H. lia.
Qed.

Lemma one_unit_cost c u : one_unit c u -> 0 <= u /\ cost2_den c <= cost2 c u.
Proof.
  intros [H1 H2]. change (10 ^ 36) with (ONE * ONE) in H2. change (10 ^ 18) with ONE in H2.
  split; [exact H1 |]. unfold cost2, cost2_den, cost_den. lia.
Qed.

Lemma units_cost c u n : linear_pos c -> one_unit c u -> 0 <= n -> cost2_den c * n <= cost2 c (u * n).
Proof.
  intros Hp Hu Hn. destruct (one_unit_cost c u Hu) as [U0 U1]. revert n Hn. apply natlike_ind.
  - rewrite !Z.mul_0_r, cost2_0. lia.
  - intros n Hn IH. replace (u * Z.succ n) with (u * n + u) by lia.
    pose proof (cost2_super c (u * n) u Hp ltac:(apply Z.mul_nonneg_nonneg; lia) U0). lia.
Qed.

(** The invariant: the collateral is at most what the tokens sold and [tol] more cost. *)
Definition full (c : linear_curve) (tol M : Z) (st : lpool) : Prop :=
  0 <= M - left st * ONE + tol /\ cost2_den c * held st <= cost2 c (M - left st * ONE + tol).

Lemma full_more c t t' M st : linear_pos c -> t <= t' -> full c t M st -> full c t' M st.
Proof.
  intros Hp Ht [H1 H2]. split; [lia |]. eapply Z.le_trans; [exact H2 |]. apply cost2_mono; [exact Hp | lia].
Qed.

Lemma ahead_nonneg c X g u o : linear_pos c -> 0 <= X -> blur c X g -> one_unit c u -> 0 <= g /\ 0 <= ahead g u o.
Proof.
  intros Hp HX HB [U _]. assert (G : 0 <= g).
  { destruct HB as [_ HB]. destruct Hp as ((_ & _ & Y & _) & P1 & P2 & P3). unfold is_u64 in Y.
    assert (0 <= price_num c * slope_den c * 10 ^ 18) by (repeat apply Z.mul_nonneg_nonneg; lia).
    assert (N : 0 < slope_num c * price_den c) by (apply Z.mul_pos_pos; lia).
    assert (S : 0 < slope_den c * price_den c) by (apply Z.mul_pos_pos; lia).
    assert (0 <= slope_num c * price_den c * X) by (apply Z.mul_nonneg_nonneg; lia).
    destruct (Z.le_gt_cases 0 g) as [L | L]; [exact L | exfalso].
    assert (slope_num c * price_den c * g <= 0) by (apply Z.mul_nonneg_nonpos; lia). lia. }
  split; [exact G |]. destruct o; cbn [ahead]; lia.
Qed.

Lemma lstep_full c f X g u tol D st o :
  linear_wf c -> feeless f -> linear_pos c -> blur c X g -> one_unit c u -> 0 <= tol -> 0 <= X ->
  pool_u64 st -> full c tol (D * ONE) st -> D * ONE + tol + ahead g u o <= X -> (forall x, o <> TopUp x) ->
  full c (tol + ahead g u o) (D * ONE) (lstep c f st o).
Proof.
  intros Hc Hf Hp HB HU Ht HX0 Hu HF HX HO'. pose proof Hu as (U1 & U2).
  pose proof ONE_pos as HO. pose proof HALF_ONE as HH. destruct (one_unit_cost c u HU) as [Hu0 Hu1].
  pose proof (cost2_den_pos c Hp) as HR. pose proof HF as [F1 F2].
  destruct (ahead_nonneg c X g u o Hp HX0 HB HU) as [G0 A0].
  assert (Hkeep : full c (tol + ahead g u o) (D * ONE) st) by (apply (full_more c tol); [exact Hp | lia | exact HF]).
  assert (L0 : 0 <= left st * ONE) by (unfold is_u64 in U2; apply Z.mul_nonneg_nonneg; lia).
  set (x := D * ONE - left st * ONE + tol) in *.
  destruct o as [s | n | y | y | y]; cbn [ahead] in *; change (10 ^ 18) with ONE in *.
  - cbn [lstep] in *. destruct (curve_swap _ _ _ _ _ _) as [r | |] eqn:E; try exact Hkeep.
    destruct (0 <=? s) eqn:E1; cbn [andb] in *; [| exact Hkeep].
    destruct (s <=? u64_max) eqn:E2; cbn [andb] in *; [| exact Hkeep].
    destruct (new_swap_source_amount r <=? u64_max) eqn:E3; [| exact Hkeep].
    apply Z.leb_le in E1, E2, E3. clear Hkeep.
    assert (Hs : is_u64 s) by (unfold is_u64; lia).
    apply feeless_swap in E; try assumption. destruct E as (E & _ & _ & HDr & N & Nd & _).
    cbn [swap_without_fees] in E.
    pose proof (linear_swap_bounds _ _ _ _ _ _ _ Hc Hs U1 U2 E) as (B1 & B2 & _).
    pose proof E as E'. apply linear_swap_a_to_b in E'; try assumption.
    destruct E' as (_ & Psrc & Pdst & b0 & Hb0 & Hcase).
    unfold full. cbn [held left]. rewrite N, Nd.
    pose proof (blur_above c X g _ b0 x Hp HB U1 Hb0 ltac:(unfold x; lia) F2) as Hab.
    pose proof (b_up_bounds c (held st) _ Hp ltac:(unfold is_u64, u64_max in U1; lia) Hb0) as Bb.
    set (n := destination_amount_swapped r) in *.
    replace (D * ONE - (left st - n) * ONE + (tol + (ONE + g + u))) with (x + n * ONE + ONE + g + u) by (unfold x; ring).
    assert (Hn0 : 0 <= n * ONE) by (apply Z.mul_nonneg_nonneg; lia).
    split; [lia |].
    destruct Hcase as [(Hdst & Hsrc & Hsold) | (Hsrc & _ & b1 & D1 & Hle & Hdst & _)].
    + unfold is_u64 in U2. destruct (sold_out_exact c (held st) b0 (left st) _ Hp ltac:(lia) ltac:(lia) Hsold) as [_ S].
      rewrite <- Hdst in S.
      pose proof (cost2_super c (b0 + n * ONE) u Hp ltac:(lia) Hu0) as Su.
      pose proof (cost2_mono c (b0 + n * ONE + u) (x + n * ONE + ONE + g + u) Hp ltac:(lia)) as Mo.
      assert (PD : price_den c * ONE <= cost2_den c).
      { destruct Hp as (_ & P1 & P2 & P3). unfold cost2_den, cost_den.
        replace (2 * slope_den c * price_den c * ONE * ONE) with (price_den c * ONE * (2 * slope_den c * ONE)) by ring.
        assert (0 < price_den c * ONE) by (apply Z.mul_pos_pos; lia).
        assert (1 <= 2 * slope_den c * ONE) by nia. nia. }
      rewrite <- cost2_den_eq in S. lia.
    + rewrite Hsrc in N |- *. rewrite N in E3.
      assert (L1 : b1 - b0 < (n + 1) * ONE).
      { rewrite Hdst. pose proof (div_bounds (b1 - b0) ONE HO). lia. }
      assert (HnU : is_u64 n) by (unfold is_u64 in *; lia).
      assert (LX : left st * ONE - n * ONE >= 0) by (assert (0 <= (left st - n) * ONE) by (apply Z.mul_nonneg_nonneg; lia); lia).
      pose proof (blur_below c X g (held st + s) b1 (x + n * ONE + ONE + g) b0 x n Hp HB
        ltac:(unfold is_u64, u64_max in *; lia) D1 ltac:(unfold x; lia) ltac:(lia) HnU eq_refl
        (position_above c (held st) b0 x Hp U1 Hb0 ltac:(lia) ltac:(unfold cost2_den in F2; lia)) L1) as K.
      pose proof (cost2_mono c (x + n * ONE + ONE + g) (x + n * ONE + ONE + g + u) Hp ltac:(lia)). lia.
  - cbn [lstep] in *. destruct (curve_swap _ _ _ _ _ _) as [r | |] eqn:E; try exact Hkeep.
    destruct (0 <=? n) eqn:E1; cbn [andb]; [| exact Hkeep].
    destruct (n <=? u64_max) eqn:E2; cbn [andb]; [| exact Hkeep].
    destruct (new_swap_source_amount r <=? u64_max) eqn:E3; [| exact Hkeep].
    apply Z.leb_le in E1, E2, E3. clear Hkeep.
    assert (Hs : is_u64 n) by (unfold is_u64; lia). pose proof E as E0.
    apply feeless_swap in E; try assumption. destruct E as (E & _ & _ & HDr & N & Nd & _).
    cbn [swap_without_fees] in E.
    pose proof (linear_swap_bounds _ _ _ _ _ _ _ Hc Hs U2 U1 E) as (B1 & B2 & _).
    apply linear_swap_b_to_a in E; try assumption.
    destruct E as (_ & Psrc & Pdst & b0 & Hb0 & Hcase).
    pose proof (blur_above c X g _ b0 x Hp HB U1 Hb0 ltac:(unfold x; lia) F2) as Hab.
    unfold full. cbn [held left].
    destruct Hcase as [(Hlt & Hsrc & Hdst) | (Hge & _)].
    + rewrite N, Nd, Hdst, Z.sub_diag, Z.mul_0_r. set (m := source_amount_swapped r) in *.
      replace (D * ONE - (left st + m) * ONE + (tol + (ONE + g + u))) with (x - m * ONE + ONE + g + u) by (unfold x; ring).
      assert (P : 0 <= x - m * ONE + ONE + g + u) by lia. split; [exact P |].
      pose proof (cost2_mono c 0 (x - m * ONE + ONE + g + u) Hp ltac:(lia)) as Mo. rewrite cost2_0 in Mo. exact Mo.
    + destruct (sale_leaves c f n (left st) (held st) b0 r Hc Hf U1 Hs U2 E0 Hb0 Hge) as (e & Ee & Es & _ & _ & Ec).
      rewrite N, Es. replace (D * ONE - (left st + n) * ONE + (tol + (ONE + g + u))) with (x - n * ONE + ONE + g + u) by (unfold x; ring).
      assert (E0' : 0 <= e * ONE) by lia.
      split; [lia |]. pose proof (cost2_whole c e) as W.
      pose proof (cost2_super c (e * ONE) u Hp E0' Hu0) as Su.
      pose proof (cost2_mono c (e * ONE + u) (x - n * ONE + ONE + g + u) Hp ltac:(lia)) as Mo.
      assert (ONE * ONE * ((new_swap_destination_amount r - 1) * cost_den c) <= ONE * ONE * cost_num c e).
      { apply Z.mul_le_mono_nonneg_l; [apply Z.mul_nonneg_nonneg; lia | lia]. }
      rewrite cost2_den_eq in *. lia.
  - clear Hkeep. unfold lstep in *. destruct (0 <=? y) eqn:E1; cbn [andb].
    2:{ apply (full_more c tol); [exact Hp | lia | exact HF]. }
    destruct (_ <=? u64_max) eqn:E2; [| apply (full_more c tol); [exact Hp | lia | exact HF]].
    apply Z.leb_le in E1, E2. rewrite Z.max_r in * by lia. unfold full. cbn [held left].
    assert (Uy : 0 <= u * y) by (apply Z.mul_nonneg_nonneg; lia).
    replace (D * ONE - left st * ONE + (tol + u * y)) with (x + u * y) by (unfold x; ring). split; [lia |].
    pose proof (units_cost c u y Hp HU E1). pose proof (cost2_super c x (u * y) Hp F1 Uy). lia.
  - clear Hkeep. unfold lstep in *. destruct (0 <=? y) eqn:E1; cbn [andb].
    2:{ apply (full_more c tol); [exact Hp | lia | exact HF]. }
    destruct (_ <=? u64_max) eqn:E2; [| apply (full_more c tol); [exact Hp | lia | exact HF]].
    apply Z.leb_le in E1, E2. rewrite Z.max_r in * by lia. unfold full. cbn [held left].
    replace (D * ONE - (left st + y) * ONE + (tol + ONE * y)) with x by (unfold x; ring). exact HF.
  - destruct (HO' y eq_refl).
Qed.

Lemma lstep_total_mono c f st o : feeless f -> total st <= total (lstep c f st o).
Proof.
  intros Hf. rewrite (lstep_total c f st o Hf). destruct o; try lia.
  unfold lstep. destruct ((0 <=? x) && (left st + x <=? u64_max)) eqn:E; cbn [left]; [| lia].
  apply andb_true_iff in E. destruct E as [E _]. apply Z.leb_le in E. lia.
Qed.

Lemma lrun_total_mono c f st ops : feeless f -> total st <= total (lrun c f st ops).
Proof.
  intros Hf. revert st. induction ops as [| o ops IH]; intros st; [cbn; lia |].
  change (lrun c f st (o :: ops)) with (lrun c f (lstep c f st o) ops).
  pose proof (lstep_total_mono c f st o Hf). specialize (IH (lstep c f st o)). lia.
Qed.

Lemma aheads_cons g u o ops : aheads g u (o :: ops) = ahead g u o + aheads g u ops.
Proof. reflexivity. Qed.

Lemma aheads_nonneg c X g u ops : linear_pos c -> 0 <= X -> blur c X g -> one_unit c u -> 0 <= aheads g u ops.
Proof.
  intros Hp HX HB HU. induction ops as [| o ops IH]; [cbn; lia |]. rewrite aheads_cons.
  pose proof (ahead_nonneg c X g u o Hp HX HB HU). lia.
Qed.

Lemma full_step c f X g u tol st o :
  linear_wf c -> feeless f -> linear_pos c -> blur c X g -> one_unit c u -> 0 <= tol -> 0 <= X ->
  pool_u64 st -> full c tol (total st * ONE) st -> total st * ONE + tol + ahead g u o <= X ->
  full c (tol + ahead g u o) (total (lstep c f st o) * ONE) (lstep c f st o).
Proof.
  intros Hc Hf Hp HB HU Ht HX0 Hu HF HX. pose proof (lstep_total c f st o Hf) as T.
  destruct o as [s | n | y | y | y];
    try (rewrite T, Z.add_0_r; apply lstep_full with (X := X); try assumption; intros ? ?; discriminate).
  rewrite T. cbn [ahead]. rewrite Z.add_0_r. unfold lstep. destruct (_ && _).
  - cbn [left held]. unfold full in *. cbn [left held].
    replace ((total st + (left st + y - left st)) * ONE - (left st + y) * ONE + tol) with (total st * ONE - left st * ONE + tol) by ring.
    exact HF.
  - rewrite Z.sub_diag, Z.add_0_r. exact HF.
Qed.

Lemma full_run c f X g u tol st ops :
  linear_wf c -> feeless f -> linear_pos c -> blur c X g -> one_unit c u -> 0 <= tol -> 0 <= X ->
  pool_u64 st -> full c tol (total st * ONE) st -> total (lrun c f st ops) * ONE + tol + aheads g u ops <= X ->
  full c (tol + aheads g u ops) (total (lrun c f st ops) * ONE) (lrun c f st ops).
Proof.
  intros Hc Hf Hp HB HU Ht HX0. revert tol Ht st. induction ops as [| o ops IH]; intros tol Ht st Hu HF HX.
  { cbn [aheads fold_right lrun fold_left]. rewrite Z.add_0_r. exact HF. }
  change (lrun c f st (o :: ops)) with (lrun c f (lstep c f st o) ops) in *. rewrite aheads_cons in *.
  pose proof (ahead_nonneg c X g u o Hp HX0 HB HU) as [_ A0]. pose proof (aheads_nonneg c X g u ops Hp HX0 HB HU) as A1.
  pose proof (lstep_total_mono c f st o Hf) as T1. pose proof (lrun_total_mono c f (lstep c f st o) ops Hf) as T2.
  pose proof ONE_pos as HO.
  assert (T3 : total st * ONE <= total (lrun c f (lstep c f st o) ops) * ONE) by (apply Z.mul_le_mono_nonneg_r; lia).
  rewrite Z.add_assoc in *. apply IH; [lia | apply lstep_u64; assumption | | lia].
  apply full_step with (X := X); try assumption. lia.
Qed.

Lemma full_history c f X g u D ops :
  linear_wf c -> linear_validate c = Ok tt -> feeless f -> is_u64 D -> blur c X g -> one_unit c u ->
  let st := lrun c f (mk_lpool 0 D 0) ops in let t := aheads g u ops in
  (sold st + left st) * ONE + t <= X ->
  0 <= sold st * ONE + t /\ cost2_den c * held st <= cost2 c (sold st * ONE + t).
Proof.
  intros Hc Hv Hf HD HB HU. cbv zeta. intros HX. pose proof (validated_pos c Hc Hv) as Hp.
  assert (F : full c 0 (total (mk_lpool 0 D 0) * ONE) (mk_lpool 0 D 0)).
  { unfold full, total. cbn [held left sold]. replace ((0 + D) * ONE - D * ONE + 0) with 0 by ring.
    split; [lia |]. rewrite Z.mul_0_r, cost2_0. lia. }
  assert (P : pool_u64 (mk_lpool 0 D 0)) by (split; [unfold is_u64, u64_max; cbn [held]; lia | exact HD]).
  pose proof (full_run c f X g u 0 (mk_lpool 0 D 0) ops Hc Hf Hp HB HU (Z.le_refl 0) (proj1 HB) P F) as K.
  set (st := lrun c f (mk_lpool 0 D 0) ops) in *. unfold total, full in K. rewrite Z.add_0_l, Z.add_0_r in K.
  replace ((sold st + left st) * ONE - left st * ONE + aheads g u ops) with (sold st * ONE + aheads g u ops) in K by ring.
  exact (K HX).
Qed.

Lemma aheads_whole ops : aheads ONE ONE ops = ONE * behinds ops.
Proof.
  induction ops as [| o ops IH]; [unfold aheads, behinds; cbn [fold_right]; ring |]. rewrite aheads_cons, IH.
  change (behinds (o :: ops)) with (behind o + behinds ops). rewrite Z.mul_add_distr_l. f_equal.
  unfold ahead, behind. change (10 ^ 18) with ONE. destruct o; ring.
Qed.

(** A curve that starts at a price of one or more, at a slope that is not tiny. *)
Lemma full_whole c f Q D ops :
  linear_wf c -> linear_validate c = Ok tt -> feeless f -> is_u64 D -> 0 <= Q ->
  price_den c <= price_num c ->
  (price_num c * slope_den c + slope_num c * price_den c * Q) * 10 ^ 18 <=
    2 ^ 30 * price_den c * (slope_num c * 10 ^ 18 - 1414213566 * slope_den c) ->
  let st := lrun c f (mk_lpool 0 D 0) ops in let n := behinds ops in
  sold st + left st + n <= Q ->
  0 <= sold st + n /\ cost_den c * held st <= cost_num c (sold st + n).
Proof.
  intros Hc Hv Hf HD HQ HP HS. cbv zeta. intros HX. pose proof (validated_pos c Hc Hv) as Hp. pose proof ONE_pos as HO.
  assert (HB : blur c (Q * ONE) ONE).
  { split; [apply Z.mul_nonneg_nonneg; lia |]. eapply Z.le_trans; [| eapply Z.le_trans; [exact HS |]]; apply Z.eq_le_incl;
      change (10 ^ 18) with ONE; ring. }
  assert (HU : one_unit c ONE).
  { split; [lia |]. change (10 ^ 36) with (ONE * ONE). change (10 ^ 18) with ONE.
    destruct Hp as (W & P1 & P2 & P3). destruct W as (W1 & W2 & W3 & W4). unfold is_u64 in *.
    assert (0 <= slope_num c * price_den c * ONE * ONE) by (repeat apply Z.mul_nonneg_nonneg; lia).
    assert (2 * slope_den c * ONE * ONE * price_den c <= 2 * slope_den c * ONE * ONE * price_num c)
      by (apply Z.mul_le_mono_nonneg_l; [repeat apply Z.mul_nonneg_nonneg; lia | exact HP]).
    lia. }
  pose proof (full_history c f (Q * ONE) ONE ONE D ops Hc Hv Hf HD HB HU) as K. cbv zeta in K. rewrite aheads_whole in K.
  set (st := lrun c f (mk_lpool 0 D 0) ops) in *. set (n := behinds ops) in *. clearbody st n.
  replace (sold st * ONE + ONE * n) with ((sold st + n) * ONE) in K by ring.
  assert (E : (sold st + left st) * ONE + ONE * n <= Q * ONE)
    by (replace ((sold st + left st) * ONE + ONE * n) with ((sold st + left st + n) * ONE) by ring; apply Z.mul_le_mono_nonneg_r; lia).
  destruct (K E) as [K1 K2]. split; [nia |]. rewrite cost2_whole in K2. unfold cost2_den in K2.
  apply (Z.mul_le_mono_pos_l _ _ (ONE * ONE)); [nia |].
  eapply Z.le_trans; [| exact K2]. apply Z.eq_le_incl. ring.
Qed.

(** ** A purchase sold straight back (C111) *)
Lemma back_loss c f X g u z s a dest r1 r2 :
  linear_wf c -> linear_validate c = Ok tt -> feeless f -> blur c X g -> one_unit c u ->
  is_u64 a -> is_u64 s -> is_u64 dest -> is_u64 (new_swap_source_amount r1) ->
  curve_swap (LinearPrice c) s a dest AtoB f = Val r1 ->
  curve_swap (LinearPrice c) (destination_amount_swapped r1) (new_swap_destination_amount r1)
    (new_swap_source_amount r1) BtoA f = Val r2 ->
  0 <= z -> cost2_den c * a <= cost2 c z -> dest * ONE + z + 2 * (ONE + g + u) <= X ->
  cost2_den c * (a + source_amount_swapped r1 - destination_amount_swapped r2) <= cost2 c (z + 2 * (ONE + g + u)).
Proof.
  intros Hc Hv Hf HB HU Ha Hs Hd Hn E1 E2 Hz Hcov HX. pose proof (validated_pos c Hc Hv) as Hp. pose proof ONE_pos as HO.
  pose proof (ahead_nonneg c X g u (Buy 0) Hp (proj1 HB) HB HU) as [G0 _]. pose proof (proj1 HU) as U0.
  set (n := destination_amount_swapped r1) in *.
  pose proof E1 as F1. apply feeless_swap in F1; try assumption. destruct F1 as (F1 & _ & _ & D1 & N1 & M1 & _).
  cbn [swap_without_fees] in F1. pose proof (linear_swap_bounds _ _ _ _ _ _ _ Hc Hs Ha Hd F1) as (B1 & B2 & _).
  fold n in F1, D1, M1, B2. assert (Un : is_u64 n) by (unfold is_u64 in *; lia).
  assert (Um : is_u64 (new_swap_destination_amount r1)) by (rewrite M1; unfold is_u64 in *; lia).
  pose proof E2 as F2. apply feeless_swap in F2; try assumption. destruct F2 as (F2 & _ & _ & D2 & N2 & M2 & _).
  cbn [swap_without_fees] in F2. pose proof (linear_swap_bounds _ _ _ _ _ _ _ Hc Un Um Hn F2) as (B3 & B4 & _).
  pose proof F2 as F3. apply linear_swap_b_to_a in F3; try assumption. destruct F3 as (_ & P1 & P2 & b0 & _ & F3).
  assert (T : lrun c f (mk_lpool a dest 0) [Buy s; Sell n] =
    mk_lpool (new_swap_destination_amount r2) (new_swap_source_amount r2) (0 + n - source_amount_swapped r2)).
  { unfold lrun. cbn [fold_left lstep held left sold]. rewrite E1.
    replace (0 <=? s) with true by (symmetry; apply Z.leb_le; apply Hs).
    replace (s <=? u64_max) with true by (symmetry; apply Z.leb_le; apply Hs).
    replace (new_swap_source_amount r1 <=? u64_max) with true by (symmetry; apply Z.leb_le; apply Hn).
    cbn [andb held left sold]. fold n. rewrite E2.
    replace (0 <=? n) with true by (symmetry; apply Z.leb_le; apply Un).
    replace (n <=? u64_max) with true by (symmetry; apply Z.leb_le; apply Un).
    replace (new_swap_source_amount r2 <=? u64_max) with true
      by (symmetry; apply Z.leb_le; rewrite N2, M1; unfold is_u64 in *; lia).
    reflexivity. }
  destruct F3 as [(_ & _ & F3) | (_ & F3 & _)].
  { replace (a + source_amount_swapped r1 - destination_amount_swapped r2) with 0 by lia. rewrite Z.mul_0_r, <- (cost2_0 c).
    apply cost2_mono; [exact Hp | lia]. }
  pose proof (full_run c f X g u z (mk_lpool a dest 0) [Buy s; Sell n] Hc Hf Hp HB HU Hz (proj1 HB)) as K.
  rewrite T in K. unfold total in K. cbn [held left sold] in K.
  replace (aheads g u [Buy s; Sell n]) with (2 * (ONE + g + u)) in K
    by (unfold aheads, ahead; cbn [fold_right]; change (10 ^ 18) with ONE; ring).
  assert (EL : 0 + n - source_amount_swapped r2 + new_swap_source_amount r2 = dest) by lia. rewrite EL in K.
  assert (K0 : pool_u64 (mk_lpool a dest 0)) by (split; assumption).
  assert (K1 : full c z ((0 + dest) * ONE) (mk_lpool a dest 0)).
  { unfold full. cbn [held left]. replace ((0 + dest) * ONE - dest * ONE + z) with z by ring. split; assumption. }
  specialize (K K0 K1 HX). unfold full in K. cbn [held left] in K. destruct K as [_ K].
  rewrite M2, N1 in K. replace (new_swap_source_amount r2) with dest in K by lia.
  replace (dest * ONE - dest * ONE + (z + 2 * (ONE + g + u))) with (z + 2 * (ONE + g + u)) in K by ring. exact K.
Qed.

(** A trip from a pool of 51: three tokens for 206, sold for 104. *)
Lemma back_two : exists c s a dest r1 r2 z,
  linear_wf c /\ linear_validate c = Ok tt /\ is_u64 a /\ is_u64 s /\ is_u64 dest /\ is_u64 (new_swap_source_amount r1) /\
  curve_swap (LinearPrice c) s a dest AtoB no_fees = Val r1 /\
  curve_swap (LinearPrice c) (destination_amount_swapped r1) (new_swap_destination_amount r1)
    (new_swap_source_amount r1) BtoA no_fees = Val r2 /\
  source_amount_swapped r2 = destination_amount_swapped r1 /\
  0 <= z /\ cost2 c z <= cost2_den c * a <= cost2 c (z + 1) /\
  cost2 c (z + 198 * 10 ^ 16) < cost2_den c * (a + source_amount_swapped r1 - destination_amount_swapped r2).
Proof.
  exists (mk_linear 1 2 50 1), 206, 51, 5000, (mk_swap_result 257 4997 206 3 0 0), (mk_swap_result 5000 153 3 104 0 0), 1014850393395128761.
  vm_compute. repeat split; try reflexivity; discriminate.
Qed.
