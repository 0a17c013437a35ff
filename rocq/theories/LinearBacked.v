(** Backing of the tokens in circulation over whole histories (C07). *)
From Verif Require Import Ints Tactics DfsPrecise Fees LinearCurve SwapCurve Spec DfsFacts LinearFacts
  SwapFacts LinearExact LinearProps LinearRound LinearHistory.

(** Parameters whose fixed-point images are exact. *)
Definition decimal (c : linear_curve) : Prop :=
  (2 * slope_den c | slope_num c * 10 ^ 18) /\ (price_den c | price_num c * 10 ^ 9).

Lemma disc_dec c a : linear_pos c -> decimal c ->
  disc c a * (price_den c * price_den c * slope_den c) =
  price_num c * price_num c * slope_den c * ONE
  + 2 * slope_num c * a * price_den c * price_den c * ONE.
Proof.
  intros (_ & P1 & P2 & P3) ((k & K) & (q & Q)). unfold disc.
  change ONE with (10 ^ 9 * 10 ^ 9) at 1.
  replace (price_num c * price_num c * (10 ^ 9 * 10 ^ 9))
    with ((price_num c * 10 ^ 9) * (price_num c * 10 ^ 9)) by ring.
  rewrite Q. replace (q * price_den c * (q * price_den c)) with (q * q * (price_den c * price_den c)) by ring.
  rewrite Z.div_mul by nia.
  replace (2 * slope_num c * a * ONE) with (4 * k * a * slope_den c).
  2:{ change (10 ^ 18) with ONE in K. replace (2 * slope_num c * a * ONE) with (2 * a * (slope_num c * ONE)) by ring.
      rewrite K. ring. }
  rewrite Z.div_mul by lia.
  replace (price_num c * price_num c * slope_den c * ONE)
    with ((price_num c * 10 ^ 9) * (price_num c * 10 ^ 9) * slope_den c)
    by (change ONE with (10 ^ 9 * 10 ^ 9); ring).
  rewrite Q. change (10 ^ 18) with ONE in K.
  replace (2 * slope_num c * a * price_den c * price_den c * ONE)
    with (2 * (slope_num c * ONE) * a * price_den c * price_den c) by ring.
  rewrite K. ring.
Qed.

Lemma e_dec c : linear_pos c -> decimal c -> e_val c * price_den c = price_num c * ONE.
Proof.
  intros (_ & P1 & P2 & P3) (_ & (q & Q)). unfold e_val.
  replace (price_num c * ONE) with (q * 10 ^ 9 * price_den c)
    by (change ONE with (10 ^ 9 * 10 ^ 9); lia).
  rewrite Z.div_mul by lia. reflexivity.
Qed.

Lemma area_dec c e : linear_pos c -> decimal c -> 0 <= e ->
  cost_den c * area c (e * ONE) = ONE * cost_num c e.
Proof.
  intros (_ & P1 & P2 & P3) ((k & K) & (q & Q)) He. unfold area, cost_den, cost_num.
  change (10 ^ 18) with ONE in K.
  replace (slope_num c * (e * ONE) * (e * ONE) + HALF) with (HALF + (slope_num c * ONE * e * e) * ONE) by ring.
  rewrite Z.div_add by discriminate. change (HALF / ONE) with 0. rewrite Z.add_0_l.
  rewrite K. replace (k * (2 * slope_den c) * e * e) with (k * e * e * 2 * slope_den c) by ring.
  rewrite Z.div_mul by lia. rewrite Z.div_mul by lia.
  replace (price_num c * (e * ONE)) with (q * 10 ^ 9 * e * price_den c)
    by (change ONE with (10 ^ 9 * 10 ^ 9); nia).
  rewrite Z.div_mul by lia.
  replace (ONE * (slope_num c * price_den c * e * e + 2 * slope_den c * price_num c * e))
    with ((slope_num c * ONE) * price_den c * e * e + 2 * slope_den c * (price_num c * 10 ^ 9) * 10 ^ 9 * e)
    by (change ONE with (10 ^ 9 * 10 ^ 9); ring).
  rewrite K, Q. ring.
Qed.

Lemma up_dec c a b : linear_pos c -> decimal c -> 0 <= a < 2 ^ 65 -> b_up c a = Val b ->
  cost2_den c * a < cost2 c (b + 1).
Proof.
  intros Hc Hdec Ha H. destruct (b_up_root c a b Hc Ha H) as (r & -> & Zr & Hd & _).
  pose proof (disc_dec c a Hc Hdec) as HD. pose proof (e_dec c Hc Hdec) as HE.
  pose proof (e_val_bounds c Hc) as HE0.
  destruct Hc as (Hwf & H1 & H2 & H3). destruct Hwf as (_ & _ & Hp & _). unfold is_u64 in Hp.
  pose proof ONE_pos as HO. unfold cost2, cost2_den, cost_den.
  set (sn := slope_num c) in *. set (sd := slope_den c) in *. set (pn := price_num c) in *.
  set (pd := price_den c) in *. set (e := e_val c) in *. set (D := disc c a) in *.
  set (O := ONE) in *. clearbody O.
  assert (HB : (r - e) * sd < sn * (b_of_root c r + 1) /\ 0 <= b_of_root c r).
  { unfold b_of_root. fold e sd sn. pose proof (div_bounds (Z.max 0 (r - e) * sd) sn H1).
    assert (0 <= Z.max 0 (r - e) * sd) by (apply Z.mul_nonneg_nonneg; lia).
    assert ((r - e) * sd <= Z.max 0 (r - e) * sd) by (apply Z.mul_le_mono_nonneg_r; lia).
    split; [lia | apply Z.div_pos; lia]. }
  set (B := b_of_root c r + 1) in *. destruct HB as [HB HB0]. assert (0 < B) by lia.
  clearbody B. assert (He : 0 <= e) by lia. clearbody e D. clear HE0 H Hdec.
  assert (HX : (r * sd) * (r * sd) < (sn * B + e * sd) * (sn * B + e * sd)).
  { apply Z.mul_lt_mono_nonneg; nia. }
  assert (HX2 : D * O * (sd * sd) < (sn * B + e * sd) * (sn * B + e * sd)).
  { eapply Z.le_lt_trans; [| exact HX].
    replace (r * sd * (r * sd)) with (r * r * (sd * sd)) by ring.
    apply Z.mul_le_mono_nonneg_r; [nia | exact Hd]. }
  assert (HX3 : D * O * (sd * sd) * (pd * pd) <
                (sn * B + e * sd) * (sn * B + e * sd) * (pd * pd)).
  { apply Z.mul_lt_mono_pos_r; [nia | exact HX2]. }
  replace ((sn * B + e * sd) * (sn * B + e * sd) * (pd * pd))
    with ((sn * B * pd + e * pd * sd) * (sn * B * pd + e * pd * sd)) in HX3 by ring.
  rewrite HE in HX3.
  replace (D * O * (sd * sd) * (pd * pd)) with (O * sd * (D * (pd * pd * sd))) in HX3 by ring.
  rewrite HD in HX3.
  apply (Z.mul_lt_mono_pos_l (sn * pd)); [nia |].
  replace (sn * pd * (2 * sd * pd * O * O * a)) with (O * sd * (2 * sn * a * pd * pd * O)) by ring.
  replace (sn * pd * (sn * pd * B * B + 2 * sd * pn * B * O))
    with ((sn * B * pd) * (sn * B * pd) + 2 * (sn * B * pd) * (pn * O * sd)) by ring.
  replace ((sn * B * pd + pn * O * sd) * (sn * B * pd + pn * O * sd))
    with ((sn * B * pd) * (sn * B * pd) + 2 * (sn * B * pd) * (pn * O * sd) + O * sd * (pn * pn * sd * O))
    in HX3 by ring.
  lia.
Qed.

Lemma down_dec c a b : linear_pos c -> decimal c -> 0 <= a < 2 ^ 65 -> b_down c a = Val b ->
  cost2 c b <= cost2_den c * a.
Proof.
  intros Hc Hdec Ha H. apply b_value_val in H; try assumption. destruct H as (r & R & -> & Zr & _).
  assert (D0 := disc_bounds c a Hc Ha).
  assert (U0 : is_u256 (disc c a)) by (unfold is_u256, u256_max; lia).
  destruct (dfs_sqrt_down_spec _ _ U0 R) as (_ & Hd & _).
  pose proof (disc_dec c a Hc Hdec) as HD. pose proof (e_dec c Hc Hdec) as HE.
  pose proof (e_val_bounds c Hc) as HE0.
  destruct Hc as (Hwf & H1 & H2 & H3). destruct Hwf as (_ & _ & Hp & _). unfold is_u64 in Hp.
  pose proof ONE_pos as HO. unfold cost2, cost2_den, cost_den, b_of_root.
  set (sn := slope_num c) in *. set (sd := slope_den c) in *. set (pn := price_num c) in *.
  set (pd := price_den c) in *. set (e := e_val c) in *. set (D := disc c a) in *.
  set (O := ONE) in *. clearbody O. assert (He : 0 <= e) by lia.
  clearbody e D. clear HE0 U0 D0 R Hdec.
  destruct (Z.le_gt_cases r e) as [Hle | Hgt].
  { rewrite Z.max_l by lia. rewrite Z.mul_0_l, Z.div_0_l by lia. rewrite !Z.mul_0_r, Z.mul_0_l.
    repeat apply Z.mul_nonneg_nonneg; lia. }
  rewrite Z.max_r by lia.
  pose proof (div_bounds ((r - e) * sd) sn H1) as HB.
  assert (HB0 : 0 <= (r - e) * sd / sn) by (apply Z.div_pos; [apply Z.mul_nonneg_nonneg; lia | lia]).
  set (B := (r - e) * sd / sn) in *. clearbody B.
  assert (HX : (sn * B + e * sd) * (sn * B + e * sd) <= (r * sd) * (r * sd)).
  { apply Z.mul_le_mono_nonneg; nia. }
  assert (HX2 : (sn * B + e * sd) * (sn * B + e * sd) <= D * O * (sd * sd)).
  { eapply Z.le_trans; [exact HX |].
    replace (r * sd * (r * sd)) with (r * r * (sd * sd)) by ring.
    apply Z.mul_le_mono_nonneg_r; [nia | exact Hd]. }
  assert (HX3 : (sn * B + e * sd) * (sn * B + e * sd) * (pd * pd) <=
                D * O * (sd * sd) * (pd * pd)).
  { apply Z.mul_le_mono_nonneg_r; [nia | exact HX2]. }
  replace ((sn * B + e * sd) * (sn * B + e * sd) * (pd * pd))
    with ((sn * B * pd + e * pd * sd) * (sn * B * pd + e * pd * sd)) in HX3 by ring.
  rewrite HE in HX3.
  replace (D * O * (sd * sd) * (pd * pd)) with (O * sd * (D * (pd * pd * sd))) in HX3 by ring.
  rewrite HD in HX3.
  apply (Z.mul_le_mono_pos_l _ _ (sn * pd)); [nia |].
  replace (sn * pd * (2 * sd * pd * O * O * a)) with (O * sd * (2 * sn * a * pd * pd * O)) by ring.
  replace (sn * pd * (sn * pd * B * B + 2 * sd * pn * B * O))
    with ((sn * B * pd) * (sn * B * pd) + 2 * (sn * B * pd) * (pn * O * sd)) by ring.
  replace ((sn * B * pd + pn * O * sd) * (sn * B * pd + pn * O * sd))
    with ((sn * B * pd) * (sn * B * pd) + 2 * (sn * B * pd) * (pn * O * sd) + O * sd * (pn * pn * sd * O))
    in HX3 by ring.
  lia.
Qed.

(** Position of the pool if it holds [a]: everything that [a] pays for lies below [b_up]. *)
Lemma up_covers c a b x : linear_pos c -> decimal c -> 0 <= a < 2 ^ 65 -> b_up c a = Val b ->
  0 <= x -> cost2 c x <= cost2_den c * a -> x <= b.
Proof.
  intros Hc Hdec Ha H Hx Hle. pose proof (b_up_bounds c a b Hc Ha H) as Hb.
  pose proof (up_dec c a b Hc Hdec Ha H) as X.
  destruct (Z.le_gt_cases x b) as [L | G]; [exact L |].
  pose proof (cost2_mono c (b + 1) x Hc ltac:(lia)). lia.
Qed.

(** ** One step.  [M] is a position (in 10^-18 tokens) that counts every token, in the pool or not. *)
Definition backed (c : linear_curve) (M : Z) (st : lpool) : Prop :=
  cost2 c (Z.max 0 (M - left st * ONE)) <= cost2_den c * held st.

(** A position that rounds up to a whole token, or is one. *)
Definition rounds_up (M : Z) : Prop := M mod ONE = 0 \/ HALF <= M mod ONE.

(** A pool priced to sell out at [M] still holds the cost of [M] afterwards. *)
Definition sustained (c : linear_curve) (M : Z) : Prop :=
  forall a, 2 * area c M < (2 * a + 1) * ONE -> cost2 c M <= cost2_den c * a.

Definition pool_u64 (st : lpool) : Prop := is_u64 (held st) /\ is_u64 (left st).

Lemma cost2_0 c : cost2 c 0 = 0.
Proof. unfold cost2. ring. Qed.

Definition sells_out (c : linear_curve) (f : fees) (st : lpool) (o : lop) : Prop :=
  exists s, o = Buy s /\ 0 < left st /\ left (lstep c f st o) = 0.

Lemma lstep_u64 c f st o : linear_wf c -> feeless f -> pool_u64 st -> pool_u64 (lstep c f st o).
Proof.
  intros Hc Hf (U1 & U2). unfold pool_u64, is_u64 in *. destruct o as [s | n | x | x | x]; cbn [lstep].
  - destruct (curve_swap _ _ _ _ _ _) as [r | |] eqn:E; cbn [held left]; try tauto.
    destruct (0 <=? s) eqn:E1; cbn [andb]; [| tauto].
    destruct (s <=? u64_max) eqn:E2; cbn [andb]; [| tauto].
    destruct (new_swap_source_amount r <=? u64_max) eqn:E3; [| tauto]. cbn [held left].
    apply Z.leb_le in E1, E2, E3.
    assert (Hs : is_u64 s) by (unfold is_u64; lia).
    apply feeless_swap in E; try assumption. destruct E as (E & _ & _ & HD & N & M & _).
    cbn [swap_without_fees] in E.
    pose proof (linear_swap_bounds _ _ _ _ _ _ _ Hc Hs U1 U2 E). lia.
  - destruct (curve_swap _ _ _ _ _ _) as [r | |] eqn:E; cbn [held left]; try tauto.
    destruct (0 <=? n) eqn:E1; cbn [andb]; [| tauto].
    destruct (n <=? u64_max) eqn:E2; cbn [andb]; [| tauto].
    destruct (new_swap_source_amount r <=? u64_max) eqn:E3; [| tauto]. cbn [held left].
    apply Z.leb_le in E1, E2, E3.
    assert (Hs : is_u64 n) by (unfold is_u64; lia).
    apply feeless_swap in E; try assumption. destruct E as (E & _ & _ & HD & N & M & _).
    cbn [swap_without_fees] in E.
    pose proof (linear_swap_bounds _ _ _ _ _ _ _ Hc Hs U2 U1 E). lia.
  - destruct (0 <=? x) eqn:E1; cbn [andb]; [| tauto].
    destruct (_ <=? u64_max) eqn:E2; [| tauto]. cbn [held left]. lia.
  - destruct (0 <=? x) eqn:E1; cbn [andb]; [| tauto].
    destruct (_ <=? u64_max) eqn:E2; [| tauto]. cbn [held left]. lia.
  - destruct (0 <=? x) eqn:E1; cbn [andb]; [| tauto].
    destruct (_ <=? u64_max) eqn:E2; [| tauto]. cbn [held left]. lia.
Qed.

Lemma lstep_backed c f M st o :
  linear_pos c -> feeless f -> decimal c -> pool_u64 st -> 0 <= M -> rounds_up M ->
  (sustained c M \/ ~ sells_out c f st o) -> backed c M st -> backed c M (lstep c f st o).
Proof.
  intros Hp Hf Hdec Hu HM Hround Hsus HB. pose proof (proj1 Hp) as Hc. pose proof Hu as (U1 & U2).
  pose proof ONE_pos as HO.
  destruct o as [s | n | x | x | x].
  - unfold sells_out in Hsus.
    cbn [lstep] in *. destruct (curve_swap _ _ _ _ _ _) as [r | |] eqn:E; try exact HB.
    destruct (0 <=? s) eqn:E1; cbn [andb] in *; [| exact HB].
    destruct (s <=? u64_max) eqn:E2; cbn [andb] in *; [| exact HB].
    destruct (new_swap_source_amount r <=? u64_max) eqn:E3; [| exact HB].
    apply Z.leb_le in E1, E2, E3. unfold backed in *. cbn [held left] in *.
    assert (Hs : is_u64 s) by (unfold is_u64; lia).
    apply feeless_swap in E; try assumption. destruct E as (E & _ & _ & HD & N & Nd & _).
    cbn [swap_without_fees] in E.
    pose proof (linear_swap_bounds _ _ _ _ _ _ _ Hc Hs U1 U2 E) as (B1 & B2 & _).
    pose proof E as E'. apply linear_swap_a_to_b in E'; try assumption.
    destruct E' as (_ & _ & _ & b0 & Hb0 & Hcase).
    unfold is_u64, u64_max in *.
    assert (Hz : Z.max 0 (M - left st * ONE) <= b0) by (eapply up_covers; try eassumption; lia).
    pose proof (b_up_bounds c (held st) _ Hp ltac:(lia) Hb0) as Bb.
    assert (Hnorm : forall b1, b_down c (held st + s) = Val b1 -> source_amount_swapped r = s ->
      (destination_amount_swapped r) * ONE <= b1 - b0 ->
      cost2 c (Z.max 0 (M - new_swap_destination_amount r * ONE)) <=
      cost2_den c * new_swap_source_amount r).
    { intros b1 D1 S1 L1. rewrite N, Nd, S1 in *.
      pose proof (down_dec c (held st + s) _ Hp Hdec ltac:(lia) D1) as X.
      eapply Z.le_trans; [| exact X]. apply cost2_mono; [exact Hp |]. nia. }
    destruct Hcase as [(Hdst & Hsrc & Hsold) | (Hsrc & _ & b1 & D1 & Hle & Hdst & _)].
    + destruct Hsus as [Hsus | Hno].
      2:{ exfalso. apply Hno. exists s. split; [reflexivity |]. lia. }
      destruct Hsold as (S1 & S2 & S3 & _). rewrite Nd, N, Hdst.
      replace (M - (left st - left st) * ONE) with M by ring. rewrite Z.max_r by lia.
      apply Hsus. assert (area c M <= area c (b0 + left st * ONE)).
      { apply area_mono; [exact Hp |]. lia. }
      lia.
    + apply (Hnorm b1 D1 Hsrc). rewrite Hdst. pose proof (div_bounds (b1 - b0) ONE HO). lia.
  - cbn [lstep]. destruct (curve_swap _ _ _ _ _ _) as [r | |] eqn:E; try exact HB.
    destruct (0 <=? n) eqn:E1; cbn [andb]; [| exact HB].
    destruct (n <=? u64_max) eqn:E2; cbn [andb]; [| exact HB].
    destruct (new_swap_source_amount r <=? u64_max) eqn:E3; [| exact HB].
    apply Z.leb_le in E1, E2, E3. unfold backed in *. cbn [held left] in *.
    assert (Hs : is_u64 n) by (unfold is_u64; lia).
    apply feeless_swap in E; try assumption. destruct E as (E & _ & _ & HD & N & Nd & _).
    cbn [swap_without_fees] in E.
    pose proof (linear_swap_bounds _ _ _ _ _ _ _ Hc Hs U2 U1 E) as (B1 & B2 & _).
    apply linear_swap_b_to_a in E; try assumption.
    destruct E as (_ & _ & _ & b0 & Hb0 & Hcase).
    unfold is_u64, u64_max in *.
    assert (Hz : Z.max 0 (M - left st * ONE) <= b0) by (eapply up_covers; try eassumption; lia).
    rewrite N, Nd.
    destruct Hcase as [(Hlt & Hsrc & Hdst) | (Hge & Hsrc & Har & He & _ & Hdst)].
    + rewrite Hdst, Z.sub_diag, Z.mul_0_r. set (src := source_amount_swapped r) in *.
      assert (Hm : M <= (left st + src) * ONE).
      { pose proof (Z.div_mod M ONE ltac:(discriminate)) as DM.
        pose proof (Z.mod_pos_bound M ONE HO) as MB. unfold rounds_up in Hround.
        set (q := M / ONE) in *. set (m := M mod ONE) in *. clearbody q m src.
        pose proof HALF_ONE as HH.
        destruct Hround as [R0 | R0].
        - assert (q <= left st + src).
          2:{ assert (q * ONE <= (left st + src) * ONE) by (apply Z.mul_le_mono_nonneg_r; lia). lia. }
          assert (2 * (q - left st) * ONE < 2 * src * ONE + ONE) by lia.
          assert (2 * (q - left st) < 2 * src + 1) by nia. lia.
        - assert (q + 1 <= left st + src).
          2:{ assert ((q + 1) * ONE <= (left st + src) * ONE) by (apply Z.mul_le_mono_nonneg_r; lia). lia. }
          assert (2 * (q - left st) * ONE < 2 * src * ONE) by lia.
          assert (q - left st < src) by (apply (Z.mul_lt_mono_pos_r ONE); lia). lia. }
      rewrite Z.max_l by lia. rewrite cost2_0. lia.
    + unfold end_position in *.
      assert (Hcd : b0 - n * ONE <= cdivup (b0 - n * ONE) ONE * ONE) by (apply cdivup_spec; lia).
      set (e := cdivup (b0 - n * ONE) ONE) in *. clearbody e.
      assert (He0 : 0 <= e) by nia.
      apply Z.le_trans with (cost2 c (e * ONE)).
      { apply cost2_mono; [exact Hp |]. rewrite Hsrc. lia. }
      rewrite cost2_whole. pose proof (area_dec c e Hp Hdec He0) as X.
      unfold cost2_den. replace (ONE * ONE * cost_num c e) with (ONE * (ONE * cost_num c e)) by ring.
      rewrite <- X.
      assert (area c (e * ONE) <= (held st - destination_amount_swapped r) * ONE).
      { rewrite Hdst. pose proof (div_bounds (held st * ONE - area c (e * ONE)) ONE HO). lia. }
      assert (0 < cost_den c).
      { unfold cost_den. destruct Hp as (_ & ? & ? & ?). apply Z.mul_pos_pos; lia. }
      replace (ONE * (cost_den c * area c (e * ONE))) with (cost_den c * ONE * area c (e * ONE)) by ring.
      replace (cost_den c * ONE * ONE * (held st - destination_amount_swapped r))
        with (cost_den c * ONE * ((held st - destination_amount_swapped r) * ONE)) by ring.
      apply Z.mul_le_mono_nonneg_l; [apply Z.mul_nonneg_nonneg; lia | assumption].
  - unfold backed, lstep in *. destruct (0 <=? x) eqn:E1; cbn [andb]; [| exact HB].
    destruct (_ <=? u64_max) eqn:E2; [| exact HB]. cbn [held left].
    pose proof (cost2_den_pos c Hp). apply Z.leb_le in E1.
    assert (0 <= cost2_den c * x) by (apply Z.mul_nonneg_nonneg; lia). lia.
  - unfold backed, lstep in *. destruct (0 <=? x) eqn:E1; cbn [andb]; [| exact HB].
    destruct (_ <=? u64_max) eqn:E2; [| exact HB]. cbn [held left].
    eapply Z.le_trans; [| exact HB]. apply cost2_mono; [exact Hp | nia].
  - unfold backed, lstep in *. destruct (0 <=? x) eqn:E1; cbn [andb]; [| exact HB].
    destruct (_ <=? u64_max) eqn:E2; [| exact HB]. cbn [held left].
    eapply Z.le_trans; [| exact HB]. apply cost2_mono; [exact Hp | nia].
Qed.

Definition total (st : lpool) : Z := sold st + left st.

Lemma lstep_total c f st o : feeless f ->
  total (lstep c f st o) = total st + match o with TopUp x => left (lstep c f st o) - left st | _ => 0 end.
Proof.
  intros Hf. unfold total. destruct o as [s | n | x | x | x]; cbn [lstep].
  - destruct (curve_swap _ _ _ _ _ _) as [r | |] eqn:E; try lia.
    destruct (0 <=? s) eqn:E1; cbn [andb] in *; [| lia].
    destruct (s <=? u64_max) eqn:E2; cbn [andb] in *; [| lia].
    destruct (new_swap_source_amount r <=? u64_max) eqn:E3; [| lia]. cbn [left sold].
    apply Z.leb_le in E1, E2.
    apply feeless_swap in E; [| assumption | unfold is_u64; lia].
    destruct E as (_ & _ & _ & _ & _ & Nd & _). lia.
  - destruct (curve_swap _ _ _ _ _ _) as [r | |] eqn:E; try lia.
    destruct (0 <=? n) eqn:E1; cbn [andb] in *; [| lia].
    destruct (n <=? u64_max) eqn:E2; cbn [andb] in *; [| lia].
    destruct (new_swap_source_amount r <=? u64_max) eqn:E3; [| lia]. cbn [left sold].
    apply Z.leb_le in E1, E2.
    apply feeless_swap in E; [| assumption | unfold is_u64; lia].
    destruct E as (_ & _ & _ & _ & N & _). lia.
  - destruct (_ && _); cbn [left sold]; lia.
  - destruct (_ && _); cbn [left sold]; lia.
  - destruct (_ && _); cbn [left sold]; lia.
Qed.

Lemma lrun_app c f st ops1 ops2 : lrun c f st (ops1 ++ ops2) = lrun c f (lrun c f st ops1) ops2.
Proof. apply fold_left_app. Qed.

Lemma topup_left c f st x : left st <= left (lstep c f st (TopUp x)).
Proof.
  cbn [lstep]. destruct (0 <=? x) eqn:E; cbn [andb]; [| lia].
  apply Z.leb_le in E. destruct (_ <=? _); cbn [left]; lia.
Qed.

Lemma whole_rounds_up n : rounds_up (n * ONE).
Proof. left. apply Z.mod_mul. discriminate. Qed.

(** Without sell-outs the backing is exact. *)
Lemma backed_run c f st ops :
  linear_pos c -> feeless f -> decimal c -> pool_u64 st -> 0 <= total st -> backed c (total st * ONE) st ->
  (forall pre o post, ops = pre ++ o :: post -> ~ sells_out c f (lrun c f st pre) o) ->
  let st' := lrun c f st ops in pool_u64 st' /\ 0 <= total st' /\ backed c (total st' * ONE) st'.
Proof.
  intros Hp Hf Hdec Hu Ht Hb. cbv zeta. revert st Hu Ht Hb.
  induction ops as [| o ops IH]; intros st Hu Ht Hb Hno; [cbn; auto |].
  change (lrun c f st (o :: ops)) with (lrun c f (lstep c f st o) ops).
  assert (Hns : ~ sells_out c f st o) by (apply (Hno [] o ops eq_refl)).
  pose proof (lstep_total c f st o Hf) as T.
  pose proof (lstep_u64 c f st o (proj1 Hp) Hf Hu) as U.
  pose proof (lstep_backed c f (total st * ONE) st o Hp Hf Hdec Hu
                ltac:(apply Z.mul_nonneg_nonneg; [exact Ht | apply Z.lt_le_incl, ONE_pos])
                (whole_rounds_up _) (or_intror Hns) Hb) as B.
  apply IH.
  - exact U.
  - destruct o; try lia. pose proof (topup_left c f st x). lia.
  - rewrite T. destruct o; try (rewrite Z.add_0_r; exact B).
    unfold backed in *. cbn [lstep] in *. destruct (_ && _); cbn [left held] in *.
    + replace ((total st + (left st + x - left st)) * ONE - (left st + x) * ONE)
        with (total st * ONE - left st * ONE) by ring. exact Hb.
    + replace (total st + (left st - left st)) with (total st) by ring. exact Hb.
  - intros pre o' post E. apply (Hno (o :: pre) o' post). rewrite E. reflexivity.
Qed.

Lemma backed_exact c st : linear_pos c -> backed c (total st * ONE) st ->
  cost_num c (Z.max 0 (sold st)) <= cost_den c * held st.
Proof.
  intros Hp Hb. unfold backed, total, cost2_den in Hb. pose proof ONE_pos.
  replace (Z.max 0 ((sold st + left st) * ONE - left st * ONE)) with (Z.max 0 (sold st) * ONE) in Hb by nia.
  rewrite cost2_whole in Hb. nia.
Qed.

(** ** Sell-outs: the price of the last tokens is rounded to the nearest unit *)
Lemma cost2_slope c x y : linear_pos c -> 0 <= x <= y ->
  2 * price_num_at c x * (y - x) <= cost2 c y - cost2 c x <= 2 * price_num_at c y * (y - x).
Proof.
  intros (_ & P1 & P2 & P3) Hx. unfold price_num_at, cost2.
  assert (0 <= slope_num c * price_den c * (y - x) * (y - x)) by (repeat apply Z.mul_nonneg_nonneg; lia).
  nia.
Qed.

Lemma price_mono c x y : linear_pos c -> x <= y -> price_num_at c x <= price_num_at c y.
Proof.
  intros (_ & P1 & P2 & P3) Hx. unfold price_num_at.
  assert (0 <= slope_num c * price_den c * (y - x)) by (repeat apply Z.mul_nonneg_nonneg; lia). nia.
Qed.

Lemma last_below (P : Z -> Prop) n : (forall x, P x \/ ~ P x) -> 0 <= n -> P 0 -> ~ P n ->
  exists x, 0 <= x < n /\ P x /\ ~ P (x + 1).
Proof.
  intros Hdec Hn H0. revert n Hn. apply (natlike_ind (fun n => ~ P n -> exists x, 0 <= x < n /\ P x /\ ~ P (x + 1))).
  - intros H. contradiction.
  - intros n Hn IH Hs. destruct (Hdec n) as [Hy | Hy].
    + exists n. split; [lia |]. split; [exact Hy |]. exact Hs.
    + destruct (IH Hy) as (x & Hx & H1 & H2). exists x. split; [lia |]. auto.
Qed.

Lemma anchor c D : linear_pos c -> decimal c -> 0 <= D ->
  price_num_at c (D * ONE) <= 10 ^ 17 * (slope_den c * price_den c * ONE) ->
  exists M, 0 <= M <= D * ONE /\ rounds_up M /\ sustained c M /\
    cost2 c (D * ONE) - cost2 c M <= cost2_den c.
Proof.
  intros Hp Hdec HD Hprice. pose proof HALF_ONE as HH. pose proof ONE_pos as HO.
  assert (Hden : 0 < cost_den c).
  { unfold cost_den. destruct Hp as (_ & ? & ? & ?). apply Z.mul_pos_pos; lia. }
  set (G := cost_den c * ONE). assert (HG : 0 < G) by (apply Z.mul_pos_pos; lia).
  assert (HR : cost2_den c = G * ONE) by (unfold cost2_den, G; ring).
  assert (HGe : 2 * ONE * slope_den c * price_den c = G) by (unfold G, cost_den; ring).
  assert (HGp : 2 * (slope_den c * price_den c * ONE) = G) by (unfold G, cost_den; ring).
  assert (Harea : forall e, 0 <= e -> cost2 c (e * ONE) = G * area c (e * ONE)).
  { intros e He. rewrite cost2_whole. pose proof (area_dec c e Hp Hdec He). unfold G. nia. }
  clearbody G. pose proof (Harea D HD) as HT. set (ar := area c (D * ONE)) in *.
  assert (Har : 0 <= ar) by (apply area_nonneg; [exact Hp | nia]).
  pose proof (div_bounds (ar + HALF) ONE HO) as HA. set (A := (ar + HALF) / ONE) in *.
  assert (HA0 : 0 <= A) by (apply Z.div_pos; lia). clearbody A.
  rewrite HR. assert (Ear : area c (D * ONE) = ar) by reflexivity. clearbody ar.
  assert (Hsus : forall M, cost2 c M <= G * ONE * A -> A * ONE - HALF <= area c M -> sustained c M).
  { intros M H1 H2 a Ha. rewrite HR. eapply Z.le_trans; [exact H1 |].
    apply Z.mul_le_mono_nonneg_l; [nia |]. nia. }
  destruct (Z.le_gt_cases ar (A * ONE)) as [Hle | Hgt].
  { exists (D * ONE). split; [nia |]. split; [apply whole_rounds_up |]. split.
    - apply Hsus; [rewrite HT; nia |]. rewrite Ear. lia.
    - rewrite Z.sub_diag. apply Z.mul_nonneg_nonneg; lia. }
  destruct (last_below (fun x => cost2 c x <= G * ONE * A) (D * ONE)) as (x & Hx & Hx1 & Hx2).
  { intros x. destruct (Z_le_gt_dec (cost2 c x) (G * ONE * A)); [left | right]; lia. }
  { apply Z.mul_nonneg_nonneg; lia. }
  { rewrite cost2_0. repeat apply Z.mul_nonneg_nonneg; lia. }
  { rewrite HT. nia. }
  apply Z.nle_gt in Hx2.
  assert (Htop : cost2 c (D * ONE) - cost2 c (x + 1) < G * HALF) by (rewrite HT; nia).
  pose proof (Z.div_mod x ONE ltac:(discriminate)) as DM. pose proof (Z.mod_pos_bound x ONE HO) as MB.
  assert (Hcase : rounds_up x \/ x mod ONE < HALF) by (unfold rounds_up; lia).
  destruct Hcase as [Hup | Hdn].
  - exists x. split; [lia |]. split; [exact Hup |].
    assert (Hstep : cost2 c (x + 1) - cost2 c x <= 10 ^ 17 * G).
    { pose proof (cost2_slope c x (x + 1) Hp ltac:(lia)) as [_ S].
      pose proof (price_mono c (x + 1) (D * ONE) Hp ltac:(lia)). lia. }
    assert (H17 : 10 ^ 17 + 2 <= HALF) by (vm_compute; discriminate).
    split.
    + apply Hsus; [exact Hx1 |]. destruct (area_exact c x Hp ltac:(lia)) as [_ X].
      rewrite HGe in X.
      assert (L : G * (A * ONE) < G * (area c x + 2 + 10 ^ 17)).
      { replace (G * (A * ONE)) with (G * ONE * A) by ring. lia. }
      apply Z.mul_lt_mono_pos_l in L; [lia | exact HG].
    + assert (G * (10 ^ 17 + 2) <= G * HALF) by (apply Z.mul_le_mono_nonneg_l; lia). nia.
  - set (q := x / ONE) in *. set (m := x mod ONE) in *.
    assert (Hq : 0 <= q) by (apply Z.div_pos; lia). clearbody q m.
    assert (HqD : q + 1 <= D) by nia.
    exists (q * ONE). split; [nia |]. split; [apply whole_rounds_up |].
    assert (Hlow : 2 * price_num_at c (x + 1) < G).
    { pose proof (cost2_slope c (x + 1) (D * ONE) Hp ltac:(lia)) as [S _].
      assert (Hlen : HALF <= D * ONE - (x + 1)) by nia.
      assert (Hpn : 0 <= 2 * price_num_at c (x + 1)).
      { unfold price_num_at. destruct Hp as ((_ & _ & Pn & _) & P1 & P2 & P3). unfold is_u64 in Pn.
        assert (0 <= price_num c * slope_den c * ONE) by (repeat apply Z.mul_nonneg_nonneg; lia).
        assert (0 <= slope_num c * price_den c * (x + 1)) by (repeat apply Z.mul_nonneg_nonneg; lia). lia. }
      assert (2 * price_num_at c (x + 1) * HALF <= 2 * price_num_at c (x + 1) * (D * ONE - (x + 1)))
        by (apply Z.mul_le_mono_nonneg_l; assumption).
      assert (0 < HALF) by (vm_compute; reflexivity). nia. }
    assert (Hmid : cost2 c (x + 1) - cost2 c (q * ONE) <= G * HALF).
    { pose proof (cost2_slope c (q * ONE) (x + 1) Hp ltac:(nia)) as [_ S].
      replace (x + 1 - q * ONE) with (m + 1) in S by lia.
      assert (2 * price_num_at c (x + 1) * (m + 1) <= G * (m + 1)) by (apply Z.mul_le_mono_nonneg_r; lia).
      assert (G * (m + 1) <= G * HALF) by (apply Z.mul_le_mono_nonneg_l; lia). lia. }
    split.
    + apply Hsus.
      * eapply Z.le_trans; [| exact Hx1]. apply cost2_mono; [exact Hp | nia].
      * rewrite (Harea q Hq) in Hmid. nia.
    + nia.
Qed.

Lemma backed_run_M c f M st ops :
  linear_pos c -> feeless f -> decimal c -> pool_u64 st -> 0 <= M -> rounds_up M -> sustained c M ->
  backed c M st -> pool_u64 (lrun c f st ops) /\ backed c M (lrun c f st ops).
Proof.
  intros Hp Hf Hdec Hu HM Hr Hs. revert st Hu. induction ops as [| o ops IH]; intros st Hu Hb; [cbn; auto |].
  change (lrun c f st (o :: ops)) with (lrun c f (lstep c f st o) ops). apply IH.
  - apply lstep_u64; [apply Hp | assumption | assumption].
  - apply lstep_backed; auto.
Qed.

Definition no_topup (o : lop) : Prop := match o with TopUp _ => False | _ => True end.

Lemma lrun_total c f st ops : feeless f -> Forall no_topup ops -> total (lrun c f st ops) = total st.
Proof.
  intros Hf H. revert st. induction H as [| o ops Ho _ IH]; intros st; [reflexivity |].
  change (lrun c f st (o :: ops)) with (lrun c f (lstep c f st o) ops). rewrite IH, lstep_total by assumption.
  destruct o; try contradiction; lia.
Qed.

Lemma backed_always c f D ops :
  linear_pos c -> feeless f -> decimal c -> is_u64 D ->
  price_num_at c (D * ONE) <= 10 ^ 17 * (slope_den c * price_den c * ONE) ->
  Forall no_topup ops ->
  let st := lrun c f (mk_lpool 0 D 0) ops in
  cost_num c (Z.max 0 (sold st)) <= cost_den c * (held st + 1).
Proof.
  intros Hp Hf Hdec HD Hprice Hops. cbv zeta.
  assert (HD0 : 0 <= D) by (unfold is_u64 in HD; lia).
  destruct (anchor c D Hp Hdec HD0 Hprice) as (M & HM & Hr & Hs & Hgap).
  assert (U0 : pool_u64 (mk_lpool 0 D 0)) by (split; [split; vm_compute; discriminate | exact HD]).
  destruct (backed_run_M c f M (mk_lpool 0 D 0) ops Hp Hf Hdec U0 ltac:(lia) Hr Hs) as [U B].
  { unfold backed. cbn [left held]. rewrite Z.max_l by lia. rewrite cost2_0. lia. }
  pose proof (lrun_total c f (mk_lpool 0 D 0) ops Hf Hops) as T. unfold total in T. cbn [sold left] in T.
  set (st := lrun c f (mk_lpool 0 D 0) ops) in *. clearbody st.
  destruct U as (_ & Ul). unfold is_u64 in Ul. unfold backed in B.
  pose proof ONE_pos as HO. pose proof (cost2_den_pos c Hp) as HR.
  assert (X : cost2 c (Z.max 0 (sold st) * ONE) <= cost2_den c * (held st + 1)).
  { destruct (Z.le_gt_cases (sold st) 0) as [Hneg | Hpos].
    { rewrite Z.max_l, Z.mul_0_l, cost2_0 by lia.
      assert (0 <= cost2 c (Z.max 0 (M - left st * ONE))).
      { apply Z.le_trans with (cost2 c 0); [rewrite cost2_0; lia |]. apply cost2_mono; [exact Hp | lia]. }
      lia. }
    rewrite Z.max_r by lia. set (k := D * ONE - M) in *.
    destruct (Z.le_gt_cases 0 (M - left st * ONE)) as [Hin | Hout].
    - rewrite Z.max_r in B by lia.
      pose proof (cost2_convex c (sold st * ONE) (D * ONE) k Hp ltac:(lia) ltac:(nia)) as C.
      replace (D * ONE - k) with M in C by (subst k; ring).
      replace (sold st * ONE - k) with (M - left st * ONE) in C
        by (subst k; replace D with (sold st + left st) by lia; ring). lia.
    - rewrite Z.max_l, cost2_0 in B by lia.
      pose proof (cost2_convex c k (D * ONE) k Hp ltac:(lia) ltac:(lia)) as C.
      replace (D * ONE - k) with M in C by (subst k; ring).
      rewrite Z.sub_diag, cost2_0 in C.
      pose proof (cost2_mono c (sold st * ONE) k Hp ltac:(subst k; nia)). lia. }
  rewrite cost2_whole in X. unfold cost2_den in X. nia.
Qed.

(** At prices below one unit the single missing unit is real. *)
Lemma sell_out_short : exists c D ops,
  linear_wf c /\ linear_validate c = Ok tt /\ decimal c /\ is_u64 D /\
  price_num_at c (D * ONE) <= 10 ^ 17 * (slope_den c * price_den c * ONE) /\ Forall no_topup ops /\
  let st := lrun c no_fees (mk_lpool 0 D 0) ops in
  cost_den c * held st < cost_num c (sold st - 1).
Proof.
  exists (mk_linear 2 1000000000 1 1000), 2490, [Buy 100; Sell 2490].
  split; [vm_compute; intuition congruence |]. split; [vm_compute; reflexivity |].
  split. { split; [exists 1000000000 | exists 1000000]; vm_compute; reflexivity. }
  split; [vm_compute; intuition congruence |]. split; [vm_compute; congruence |].
  split; [repeat constructor |]. vm_compute. reflexivity.
Qed.

(** A sale leaves exactly the whole number of units above the area (C09). *)
Lemma sale_leaves_decimal c f n ss a b0 r :
  linear_wf c -> feeless f -> decimal c -> is_u64 a -> is_u64 n -> is_u64 ss ->
  curve_swap (LinearPrice c) n ss a BtoA f = Val r ->
  b_value_with_amt_a_locked c (a * ONE) true = Val b0 -> n * ONE <= b0 ->
  exists e, (e - 1) * ONE < b0 - n * ONE <= e * ONE /\
    (new_swap_destination_amount r - 1) * cost_den c < cost_num c e <=
    new_swap_destination_amount r * cost_den c.
Proof.
  intros Hc Hf Hdec Ha Hn Hss H Hb Hle. pose proof H as H0.
  apply feeless_swap in H; try assumption.
  destruct H as (H & _ & _ & HD & N1 & M1 & _). cbn [swap_without_fees] in *.
  apply linear_swap_b_to_a in H; try assumption.
  destruct H as (Hp & _ & _ & b0' & Hb0 & H). unfold b_up in Hb0. rewrite Hb in Hb0. injection Hb0 as <-.
  destruct H as [(Hlt & _) | (_ & Hsrc & Har & He & _ & Hdst)]; [lia |].
  unfold end_position in *. pose proof ONE_pos as HO.
  pose proof (cdivup_spec (b0 - n * ONE) ONE HO) as Hcd.
  set (e := cdivup (b0 - n * ONE) ONE) in *. clearbody e. exists e. split; [lia |].
  assert (He0 : 0 <= e) by nia.
  pose proof (area_dec c e Hp Hdec He0) as X.
  assert (Hden : 0 < cost_den c).
  { unfold cost_den. destruct Hp as (_ & ? & ? & ?). apply Z.mul_pos_pos; lia. }
  pose proof (div_bounds (a * ONE - area c (e * ONE)) ONE HO) as Y. rewrite <- Hdst in Y. rewrite M1.
  set (ar := area c (e * ONE)) in *. clearbody ar.
  set (q := a - destination_amount_swapped r) in *.
  assert (Y' : (q - 1) * ONE < ar <= q * ONE) by (subst q; lia). clearbody q.
  assert (ONE * ((q - 1) * cost_den c) < ONE * cost_num c e <= ONE * (q * cost_den c)); [| nia].
  rewrite <- X. split.
  - replace (ONE * ((q - 1) * cost_den c)) with (cost_den c * ((q - 1) * ONE)) by ring.
    apply Z.mul_lt_mono_pos_l; lia.
  - replace (ONE * (q * cost_den c)) with (cost_den c * (q * ONE)) by ring.
    apply Z.mul_le_mono_nonneg_l; lia.
Qed.

(** ** Statements over validated curves *)
Lemma validated_pos c : linear_wf c -> linear_validate c = Ok tt -> linear_pos c.
Proof.
  intros Hc Hv. destruct (linear_validate_iff c Hc) as [[V _] _]. apply V in Hv.
  split; [exact Hc |]. destruct Hc as (H1 & H2 & H3 & H4). unfold is_u64 in *. lia.
Qed.

Lemma start_backed c D : is_u64 D ->
  pool_u64 (mk_lpool 0 D 0) /\ 0 <= total (mk_lpool 0 D 0) /\
  backed c (total (mk_lpool 0 D 0) * ONE) (mk_lpool 0 D 0).
Proof.
  intros HD. unfold is_u64, total, backed, pool_u64, is_u64 in *. cbn [held left sold].
  split; [unfold u64_max in *; lia |]. split; [lia |].
  replace ((0 + D) * ONE - D * ONE) with 0 by ring. cbn [Z.max Z.compare]. rewrite cost2_0. lia.
Qed.

Lemma history_backed_exact c f D ops :
  linear_wf c -> linear_validate c = Ok tt -> decimal c -> feeless f -> is_u64 D ->
  (forall pre s post, ops = pre ++ Buy s :: post ->
     left (lrun c f (mk_lpool 0 D 0) (pre ++ [Buy s])) = 0 ->
     left (lrun c f (mk_lpool 0 D 0) pre) <= 0) ->
  let st := lrun c f (mk_lpool 0 D 0) ops in
  cost_num c (Z.max 0 (sold st)) <= cost_den c * held st.
Proof.
  intros Hc Hv Hdec Hf HD Hno. cbv zeta. pose proof (validated_pos c Hc Hv) as Hp.
  destruct (start_backed c D HD) as (U & T & B). apply backed_exact; [exact Hp |].
  apply backed_run; try assumption. intros pre o post E (s & -> & Hl & H0).
  specialize (Hno pre s post E). rewrite lrun_app in Hno. cbn [lrun fold_left] in Hno.
  change (fold_left (lstep c f) pre (mk_lpool 0 D 0)) with (lrun c f (mk_lpool 0 D 0) pre) in Hno.
  specialize (Hno H0). lia.
Qed.

Lemma history_backed c f D ops :
  linear_wf c -> linear_validate c = Ok tt -> decimal c -> feeless f -> is_u64 D ->
  price_num_at c (D * ONE) <= 10 ^ 17 * (slope_den c * price_den c * ONE) ->
  (forall x, ~ In (TopUp x) ops) ->
  let st := lrun c f (mk_lpool 0 D 0) ops in
  cost_num c (Z.max 0 (sold st)) <= cost_den c * (held st + 1).
Proof.
  intros Hc Hv Hdec Hf HD Hpr Hops. apply backed_always; try assumption.
  - apply validated_pos; assumption.
  - apply Forall_forall. intros o Ho. destruct o; try exact I. exact (Hops x Ho).
Qed.

Lemma value_partial c a b a' b' v v' :
  linear_wf c -> linear_validate c = Ok tt -> is_u64 a -> is_u64 b -> is_u64 a' -> is_u64 b' ->
  a <= a' -> b <= b' ->
  linear_normalized_value c a b = Val v -> linear_normalized_value c a' b' = Val v' ->
  exists t t', v = t / 2 ^ Z.max 0 (Z.log2 t - 31) /\ v' = t' / 2 ^ Z.max 0 (Z.log2 t' - 31) /\
    0 <= t <= t' /\ (Z.log2 t = Z.log2 t' -> v <= v').
Proof. intros Hc Hv. apply value_mono_same_length. apply validated_pos; assumption. Qed.

Lemma round_trip_profit : exists c s a dest r1 r2,
  linear_wf c /\ linear_validate c = Ok tt /\
  is_u64 a /\ is_u64 s /\ is_u64 dest /\ is_u64 (new_swap_source_amount r1) /\
  curve_swap (LinearPrice c) s a dest AtoB no_fees = Val r1 /\
  curve_swap (LinearPrice c) (destination_amount_swapped r1) (new_swap_destination_amount r1)
    (new_swap_source_amount r1) BtoA no_fees = Val r2 /\
  source_amount_swapped r1 < destination_amount_swapped r2.
Proof.
  exists (mk_linear 4 3683635795421326728 1 355643751), 1818506, 94104, 9621268,
    (mk_swap_result 94107 0 3 9621268 0 0), (mk_swap_result 9621268 94102 9621268 5 0 0).
  vm_compute. repeat split; congruence.
Qed.
