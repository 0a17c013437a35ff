(** Comparison of the linear curve's fixed-point estimates with exact arithmetic. *)
From Verif Require Import Ints Tactics DfsPrecise LinearCurve Spec DfsFacts LinearFacts.

Lemma cost2_mono c b b' : linear_pos c -> 0 <= b <= b' -> cost2 c b <= cost2 c b'.
Proof.
  intros (Hwf & H1 & H2 & H3) Hb. unfold cost2. destruct Hwf as (_ & _ & Hp & _). unfold is_u64 in Hp.
  pose proof ONE_pos.
  assert (slope_num c * price_den c * b * b <= slope_num c * price_den c * b' * b').
  { rewrite <- !Z.mul_assoc. apply Z.mul_le_mono_nonneg_l; [lia |].
    apply Z.mul_le_mono_nonneg_l; [lia |]. apply Z.mul_le_mono_nonneg; lia. }
  assert (2 * slope_den c * price_num c * b * ONE <= 2 * slope_den c * price_num c * b' * ONE).
  { apply Z.mul_le_mono_nonneg_r; [lia |]. apply Z.mul_le_mono_nonneg_l; [|lia].
    apply Z.mul_nonneg_nonneg; lia. }
  lia.
Qed.

Lemma disc_exact c a : linear_pos c -> 0 <= a ->
  let den := price_den c * price_den c * slope_den c in
  let exact := price_num c * price_num c * slope_den c * ONE
               + 2 * slope_num c * a * price_den c * price_den c * ONE in
  disc c a * den <= exact < (disc c a + 2) * den.
Proof.
  intros (Hwf & H1 & H2 & H3) Ha. destruct Hwf as (_ & _ & Hp & _). unfold is_u64 in Hp.
  cbv zeta. unfold disc.
  assert (0 < price_den c * price_den c) by nia.
  pose proof (div_bounds (price_num c * price_num c * ONE) (price_den c * price_den c) ltac:(lia)) as D1.
  pose proof (div_bounds (2 * slope_num c * a * ONE) (slope_den c) H2) as D2.
  set (q1 := price_num c * price_num c * ONE / (price_den c * price_den c)) in *.
  set (q2 := 2 * slope_num c * a * ONE / slope_den c) in *.
  set (pp := price_den c * price_den c) in *.
  nia.
Qed.

Lemma e_val_exact c : linear_pos c ->
  e_val c * price_den c <= price_num c * ONE < (e_val c + 1) * price_den c.
Proof. intros (_ & _ & _ & H). unfold e_val. apply div_bounds. exact H. Qed.

(** ** The position rounded up is never far below the exact position *)
Lemma up_position c a r : linear_pos c -> 0 <= a -> 0 <= r -> disc c a * ONE <= r * r ->
  2 * slope_num c * slope_den c * price_den c * ONE * ONE * a <
  slope_num c * cost2 c (b_of_root c r + 1) + 2 * ONE * price_den c * slope_den c * slope_den c.
Proof.
  intros Hc Ha Hr Hd. pose proof (disc_exact c a Hc Ha) as HD. cbv zeta in HD.
  pose proof (e_val_exact c Hc) as HE. pose proof (e_val_bounds c Hc) as HE0.
  destruct Hc as (Hwf & H1 & H2 & H3). destruct Hwf as (_ & _ & Hp & _). unfold is_u64 in Hp.
  pose proof ONE_pos as HO. unfold cost2.
  set (sn := slope_num c) in *. set (sd := slope_den c) in *. set (pn := price_num c) in *.
  set (pd := price_den c) in *. set (e := e_val c) in *. set (D := disc c a) in *.
  set (O := ONE) in *. clearbody O.
  assert (HB : (r - e) * sd < sn * (b_of_root c r + 1) /\ 0 <= b_of_root c r).
  { unfold b_of_root. fold e sd sn. pose proof (div_bounds (Z.max 0 (r - e) * sd) sn H1).
    assert (0 <= Z.max 0 (r - e) * sd) by (apply Z.mul_nonneg_nonneg; lia).
    assert ((r - e) * sd <= Z.max 0 (r - e) * sd) by (apply Z.mul_le_mono_nonneg_r; lia).
    split; [lia | apply Z.div_pos; lia]. }
  set (B := b_of_root c r + 1) in *. destruct HB as [HB HB0]. assert (0 < B) by lia.
  clearbody B.
  assert (He : 0 <= e) by lia.
  clearbody e D. clear HE0.
  assert (HX : (r * sd) * (r * sd) < (sn * B + e * sd) * (sn * B + e * sd)).
  { apply Z.mul_lt_mono_nonneg; nia. }
  assert (HX2 : D * O * (sd * sd) < (sn * B + e * sd) * (sn * B + e * sd)).
  { eapply Z.le_lt_trans; [| exact HX].
    replace (r * sd * (r * sd)) with (r * r * (sd * sd)) by ring.
    apply Z.mul_le_mono_nonneg_r; [nia | exact Hd]. }
  assert (HX3 : D * O * (sd * sd) * (pd * pd) <
                (sn * B * pd + e * pd * sd) * (sn * B * pd + e * pd * sd)).
  { replace ((sn * B * pd + e * pd * sd) * (sn * B * pd + e * pd * sd))
      with ((sn * B + e * sd) * (sn * B + e * sd) * (pd * pd)) by ring.
    apply Z.mul_lt_mono_pos_r; [nia | exact HX2]. }
  assert (HY : (sn * B * pd + e * pd * sd) * (sn * B * pd + e * pd * sd) <=
               (sn * B * pd + pn * O * sd) * (sn * B * pd + pn * O * sd)).
  { assert (0 <= sn * B * pd) by (repeat apply Z.mul_nonneg_nonneg; lia).
    assert (0 <= e * pd * sd <= pn * O * sd).
    { split; [repeat apply Z.mul_nonneg_nonneg; lia | apply Z.mul_le_mono_nonneg_r; lia]. }
    apply Z.mul_le_mono_nonneg; lia. }
  assert (HZ : O * sd * (pn * pn * sd * O + 2 * sn * a * pd * pd * O) <=
               O * sd * ((D + 2) * (pd * pd * sd))).
  { apply Z.mul_le_mono_nonneg_l; [apply Z.mul_nonneg_nonneg; lia | lia]. }
  apply (Z.mul_lt_mono_pos_r pd); [lia |].
  nia.
Qed.

(** ** The position rounded down is never far above the exact position *)
Lemma down_position c a r : linear_pos c -> 0 <= a -> 0 <= r -> r * r <= disc c a * ONE ->
  slope_num c * cost2 c (b_of_root c r) <=
  2 * slope_num c * slope_den c * price_den c * ONE * ONE * a +
  2 * slope_den c * slope_den c * price_num c * ONE +
  2 * slope_num c * slope_den c * price_den c * b_of_root c r.
Proof.
  intros Hc Ha Hr Hd. pose proof (disc_exact c a Hc Ha) as HD. cbv zeta in HD.
  pose proof (e_val_exact c Hc) as HE. pose proof (e_val_bounds c Hc) as HE0.
  destruct Hc as (Hwf & H1 & H2 & H3). destruct Hwf as (_ & _ & Hp & _). unfold is_u64 in Hp.
  pose proof ONE_pos as HO. unfold cost2, b_of_root.
  set (sn := slope_num c) in *. set (sd := slope_den c) in *. set (pn := price_num c) in *.
  set (pd := price_den c) in *. set (e := e_val c) in *. set (D := disc c a) in *.
  set (O := ONE) in *. clearbody O.
  assert (He : 0 <= e) by lia.
  clearbody e D. clear HE0.
  destruct (Z.le_gt_cases r e) as [Hle | Hgt].
  { rewrite Z.max_l by lia. rewrite Z.mul_0_l, Z.div_0_l by lia.
    assert (0 <= 2 * sn * sd * pd * O * O * a) by (repeat apply Z.mul_nonneg_nonneg; lia).
    assert (0 <= 2 * sd * sd * pn * O) by (repeat apply Z.mul_nonneg_nonneg; lia). lia. }
  rewrite Z.max_r by lia.
  pose proof (div_bounds ((r - e) * sd) sn H1) as HB.
  assert (HB0 : 0 <= (r - e) * sd / sn) by (apply Z.div_pos; [apply Z.mul_nonneg_nonneg; lia | lia]).
  set (B := (r - e) * sd / sn) in *. clearbody B.
  assert (HX : (sn * B + e * sd) * (sn * B + e * sd) <= (r * sd) * (r * sd)).
  { apply Z.mul_le_mono_nonneg; nia. }
  assert (HX2 : (sn * B + e * sd) * (sn * B + e * sd) <= D * O * (sd * sd)).
  { eapply Z.le_trans; [exact HX |].
    replace (r * sd * (r * sd)) with (r * r * (sd * sd)) by ring.
    apply Z.mul_le_mono_nonneg_r; [nia | exact Hd]. }
  assert (HX3 : (sn * B * pd + e * pd * sd) * (sn * B * pd + e * pd * sd) <=
                D * O * (sd * sd) * (pd * pd)).
  { replace ((sn * B * pd + e * pd * sd) * (sn * B * pd + e * pd * sd))
      with ((sn * B + e * sd) * (sn * B + e * sd) * (pd * pd)) by ring.
    apply Z.mul_le_mono_nonneg_r; [nia | exact HX2]. }
  assert (HZ : O * sd * (D * (pd * pd * sd)) <=
               O * sd * (pn * pn * sd * O + 2 * sn * a * pd * pd * O)).
  { apply Z.mul_le_mono_nonneg_l; [apply Z.mul_nonneg_nonneg; lia | lia]. }
  (* the loss from rounding the starting price down *)
  set (E := e * pd) in *. set (P := pn * O) in *.
  assert (HP : 0 <= P - E <= pd) by lia. assert (0 <= E) by (apply Z.mul_nonneg_nonneg; lia).
  assert (HS : sd * sd * (P * P - E * E) <= sd * sd * (2 * P * pd)).
  { apply Z.mul_le_mono_nonneg_l; nia. }
  assert (HT : 2 * sn * B * pd * sd * (P - E) <= 2 * sn * B * pd * sd * pd).
  { apply Z.mul_le_mono_nonneg_l; [repeat apply Z.mul_nonneg_nonneg; lia | lia]. }
  apply (Z.mul_le_mono_pos_r _ _ pd); [lia |].
  replace (sn * (sn * pd * B * B + 2 * sd * pn * B * O) * pd)
    with (sn * B * pd * (sn * B * pd) + 2 * (sn * B * pd) * sd * P) by (subst P; ring).
  replace ((2 * sn * sd * pd * O * O * a + 2 * sd * sd * pn * O + 2 * sn * sd * pd * B) * pd)
    with (O * sd * (2 * sn * a * pd * pd * O) + sd * sd * (2 * P * pd) + 2 * sn * B * pd * sd * pd)
    by (subst P; ring).
  replace (O * sd * (pn * pn * sd * O + 2 * sn * a * pd * pd * O))
    with (sd * sd * (P * P) + O * sd * (2 * sn * a * pd * pd * O)) in HZ by (subst P; ring).
  replace ((sn * B * pd + E * sd) * (sn * B * pd + E * sd))
    with (sn * B * pd * (sn * B * pd) + 2 * sn * B * pd * sd * E + sd * sd * (E * E)) in HX3 by ring.
  replace (2 * sn * B * pd * sd * (P - E)) with (2 * (sn * B * pd) * sd * P - 2 * sn * B * pd * sd * E) in HT by ring.
  replace (sd * sd * (P * P - E * E)) with (sd * sd * (P * P) - sd * sd * (E * E)) in HS by ring.
  replace (D * O * (sd * sd) * (pd * pd)) with (O * sd * (D * (pd * pd * sd))) in HX3 by ring.
  lia.
Qed.

(** ** The fixed-point area against the exact area *)
Lemma area_exact c b : linear_pos c -> 0 <= b ->
  2 * ONE * slope_den c * price_den c * area c b <= cost2 c b + price_den c * HALF /\
  cost2 c b < 2 * ONE * slope_den c * price_den c * (area c b + 2).
Proof.
  intros (Hwf & H1 & H2 & H3) Hb. destruct Hwf as (_ & _ & Hp & _). unfold is_u64 in Hp.
  pose proof ONE_pos as HO. unfold cost2, area.
  rewrite !Z.div_div by lia.
  set (sn := slope_num c) in *. set (sd := slope_den c) in *. set (pn := price_num c) in *.
  set (pd := price_den c) in *.
  assert (0 <= HALF) by (vm_compute; congruence). set (Hf := HALF) in *. clearbody Hf.
  set (O := ONE) in *. clearbody O.
  pose proof (div_bounds (sn * b * b + Hf) (O * (sd * 2)) ltac:(nia)) as D1.
  pose proof (div_bounds (pn * b) pd H3) as D2.
  set (q1 := (sn * b * b + Hf) / (O * (sd * 2))) in *. set (q2 := pn * b / pd) in *.
  clearbody q1 q2.
  assert (D1' : pd * (q1 * (O * (sd * 2))) <= pd * (sn * b * b + Hf) /\
                pd * (sn * b * b + Hf) <= pd * ((q1 + 1) * (O * (sd * 2)))).
  { split; apply Z.mul_le_mono_nonneg_l; lia. }
  assert (D2' : 2 * O * sd * (q2 * pd) <= 2 * O * sd * (pn * b) /\
                2 * O * sd * (pn * b) < 2 * O * sd * ((q2 + 1) * pd)).
  { split; [apply Z.mul_le_mono_nonneg_l | apply Z.mul_lt_mono_pos_l]; nia. }
  assert (0 <= pd * Hf) by nia.
  split; nia.
Qed.

(** ** Prices at the estimated positions *)
Lemma up_price c a r : linear_pos c -> 0 <= a -> 0 <= r ->
  (0 < disc c a -> 1 <= r /\
    (r - 1) * (2 ^ 31 - 1) * ((r - 1) * (2 ^ 31 - 1)) < disc c a * ONE * (2 ^ 31 * 2 ^ 31)) ->
  (disc c a = 0 -> r = 0) -> 0 <= disc c a ->
  let excess := Z.max 0 (price_num_at c (b_of_root c r) - 2 * slope_den c * price_den c) * (2 ^ 31 - 1) in
  excess * excess <= ONE * ONE * (2 ^ 31 * 2 ^ 31) * slope_den c * exact_disc c a.
Proof.
  intros Hc Ha Hr Hd1 Hd0 Hdn. cbv zeta. pose proof (disc_exact c a Hc Ha) as HD. cbv zeta in HD.
  pose proof (e_val_exact c Hc) as HE. pose proof (e_val_bounds c Hc) as HE0.
  destruct Hc as (Hwf & H1 & H2 & H3). destruct Hwf as (_ & _ & Hp & _). unfold is_u64 in Hp.
  pose proof ONE_pos as HO. unfold price_num_at, exact_disc, b_of_root.
  set (sn := slope_num c) in *. set (sd := slope_den c) in *. set (pn := price_num c) in *.
  set (pd := price_den c) in *. set (e := e_val c) in *. set (D := disc c a) in *.
  set (O := ONE) in *. clearbody O. assert (He : 0 <= e) by lia. clearbody e D. clear HE0.
  set (K := 2 ^ 31) in *. assert (HK : 1 < K) by (subst K; vm_compute; reflexivity). clearbody K.
  assert (0 < sd * pd) by nia.
  destruct (Z.le_gt_cases r e) as [Hle | Hgt].
  - rewrite (Z.max_l 0 (r - e)) by lia. rewrite Z.mul_0_l, Z.div_0_l by lia.
    rewrite Z.mul_0_r, Z.add_0_r.
    assert (Hpo : 0 <= pn * sd * O) by (repeat apply Z.mul_nonneg_nonneg; lia).
    assert (Hm : 0 <= Z.max 0 (pn * sd * O - 2 * sd * pd) * (K - 1) <= pn * sd * O * K).
    { split; [apply Z.mul_nonneg_nonneg; lia | apply Z.mul_le_mono_nonneg; lia]. }
    eapply Z.le_trans; [apply Z.mul_le_mono_nonneg; [apply Hm | apply Hm | apply Hm | apply Hm] |].
    replace (pn * sd * O * K * (pn * sd * O * K)) with (O * O * (K * K) * sd * (pn * pn * sd)) by ring.
    apply Z.mul_le_mono_nonneg_l; [repeat apply Z.mul_nonneg_nonneg; lia |].
    assert (0 <= 2 * sn * a * pd * pd) by (repeat apply Z.mul_nonneg_nonneg; lia). lia.
  - rewrite (Z.max_r 0 (r - e)) by lia.
    assert (HDp : 0 < D).
    { destruct (Z.eq_dec D 0) as [E | E]; [| lia]. specialize (Hd0 E). lia. }
    destruct (Hd1 HDp) as [Hr1 Hrb]. clear Hd1 Hd0.
    pose proof (div_bounds ((r - e) * sd) sn H1) as HB.
    set (B := (r - e) * sd / sn) in *. clearbody B.
    assert (HPN : pn * sd * O + sn * pd * B - 2 * sd * pd <= (r - 1) * (sd * pd)).
    { assert (pd * (B * sn) <= pd * ((r - e) * sd)) by (apply Z.mul_le_mono_nonneg_l; lia).
      assert (sd * (pn * O) <= sd * ((e + 1) * pd)) by (apply Z.mul_le_mono_nonneg_l; lia). nia. }
    assert (Hm : 0 <= Z.max 0 (pn * sd * O + sn * pd * B - 2 * sd * pd) * (K - 1)
                 <= (r - 1) * (sd * pd) * (K - 1)).
    { split; [apply Z.mul_nonneg_nonneg; lia |].
      apply Z.mul_le_mono_nonneg_r; [lia |]. apply Z.max_lub; [| exact HPN].
      apply Z.mul_nonneg_nonneg; lia. }
    eapply Z.le_trans; [apply Z.mul_le_mono_nonneg; [apply Hm | apply Hm | apply Hm | apply Hm] |].
    replace ((r - 1) * (sd * pd) * (K - 1) * ((r - 1) * (sd * pd) * (K - 1)))
      with ((r - 1) * (K - 1) * ((r - 1) * (K - 1)) * (sd * pd * (sd * pd))) by ring.
    apply Z.le_trans with (D * O * (K * K) * (sd * pd * (sd * pd))).
    { apply Z.mul_le_mono_nonneg_r; [apply Z.mul_nonneg_nonneg; lia | lia]. }
    replace (D * O * (K * K) * (sd * pd * (sd * pd))) with (O * (K * K) * sd * (D * (pd * pd * sd))) by ring.
    replace (O * O * (K * K) * sd * (pn * pn * sd + 2 * sn * a * pd * pd))
      with (O * (K * K) * sd * (pn * pn * sd * O + 2 * sn * a * pd * pd * O)) by ring.
    apply Z.mul_le_mono_nonneg_l; [repeat apply Z.mul_nonneg_nonneg; lia | lia].
Qed.

Lemma down_price c a r : linear_pos c -> 0 <= a -> 0 <= r ->
  disc c a * ONE * (2 ^ 31 * 2 ^ 31) < (r + 1) * (2 ^ 31 + 1) * ((r + 1) * (2 ^ 31 + 1)) ->
  let bound := (price_num_at c (b_of_root c r + 1) + slope_den c * price_den c) * (2 ^ 31 + 1) in
  ONE * (2 ^ 31 * 2 ^ 31) * slope_den c * (exact_disc c a * ONE - 2 * price_den c * price_den c * slope_den c)
  < bound * bound.
Proof.
  intros Hc Ha Hr Hd. cbv zeta. pose proof (disc_exact c a Hc Ha) as HD. cbv zeta in HD.
  pose proof (e_val_exact c Hc) as HE. pose proof (e_val_bounds c Hc) as HE0.
  destruct Hc as (Hwf & H1 & H2 & H3). destruct Hwf as (_ & _ & Hp & _). unfold is_u64 in Hp.
  pose proof ONE_pos as HO. unfold price_num_at, exact_disc.
  set (sn := slope_num c) in *. set (sd := slope_den c) in *. set (pn := price_num c) in *.
  set (pd := price_den c) in *. set (e := e_val c) in *. set (D := disc c a) in *.
  set (O := ONE) in *. clearbody O. assert (He : 0 <= e) by lia.
  assert (HB : (r - e) * sd < sn * (b_of_root c r + 1) /\ 0 <= b_of_root c r).
  { unfold b_of_root. fold e sd sn. pose proof (div_bounds (Z.max 0 (r - e) * sd) sn H1).
    assert (0 <= Z.max 0 (r - e) * sd) by (apply Z.mul_nonneg_nonneg; lia).
    assert ((r - e) * sd <= Z.max 0 (r - e) * sd) by (apply Z.mul_le_mono_nonneg_r; lia).
    split; [lia | apply Z.div_pos; lia]. }
  set (B := b_of_root c r + 1) in *. destruct HB as [HB HB0]. clearbody B e D. clear HE0 HB0.
  set (K := 2 ^ 31) in *. assert (HK : 1 < K) by (subst K; vm_compute; reflexivity). clearbody K.
  assert (0 < sd * pd) by nia.
  assert (HPN : (r + 1) * (sd * pd) <= pn * sd * O + sn * pd * B + sd * pd).
  { assert (pd * ((r - e) * sd) <= pd * (sn * B)) by (apply Z.mul_le_mono_nonneg_l; lia).
    assert (sd * (e * pd) <= sd * (pn * O)) by (apply Z.mul_le_mono_nonneg_l; lia). nia. }
  assert (Hm : 0 <= (r + 1) * (sd * pd) * (K + 1) <= (pn * sd * O + sn * pd * B + sd * pd) * (K + 1)).
  { split; [repeat apply Z.mul_nonneg_nonneg; lia | apply Z.mul_le_mono_nonneg_r; lia]. }
  eapply Z.lt_le_trans; [| apply Z.mul_le_mono_nonneg; [apply Hm | apply Hm | apply Hm | apply Hm]].
  replace ((r + 1) * (sd * pd) * (K + 1) * ((r + 1) * (sd * pd) * (K + 1)))
    with ((r + 1) * (K + 1) * ((r + 1) * (K + 1)) * (sd * pd * (sd * pd))) by ring.
  apply Z.le_lt_trans with (D * O * (K * K) * (sd * pd * (sd * pd))).
  { replace (D * O * (K * K) * (sd * pd * (sd * pd))) with (O * (K * K) * sd * (D * (pd * pd * sd))) by ring.
    apply Z.mul_le_mono_nonneg_l; [repeat apply Z.mul_nonneg_nonneg; lia | lia]. }
  apply Z.mul_lt_mono_pos_r; [nia | exact Hd].
Qed.
