(** Backing of a linear pool for parameters that fixed point cannot hold exactly (C84). *)
From Verif Require Import Ints Tactics DfsPrecise Fees LinearCurve SwapCurve Spec DfsFacts LinearFacts
  SwapFacts LinearExact LinearProps LinearRound LinearHistory LinearBacked RoundSpec.

(** ** How far the two positions can be off, in 10^-18 tokens *)
Lemma disc_low c a : linear_pos c ->
  ONE * exact_disc c a - 2 * (price_den c * price_den c * slope_den c) <=
  disc c a * (price_den c * price_den c * slope_den c) <= ONE * exact_disc c a.
Proof.
  intros (_ & P1 & P2 & P3). unfold disc, exact_disc.
  set (sn := slope_num c) in *. set (sd := slope_den c) in *. set (pn := price_num c) in *. set (pd := price_den c) in *.
  set (O := ONE) in *. clearbody O.
  assert (Hpp : 0 < pd * pd) by nia.
  pose proof (div_bounds (pn * pn * O) (pd * pd) Hpp) as D1. pose proof (div_bounds (2 * sn * a * O) sd P2) as D2.
  set (q1 := pn * pn * O / (pd * pd)) in *. set (q2 := 2 * sn * a * O / sd) in *. clearbody q1 q2.
  set (pp := pd * pd) in *.
  replace (O * (pn * pn * sd + 2 * sn * a * pd * pd)) with (pn * pn * O * sd + 2 * sn * a * O * pp) by (unfold pp; ring).
  clearbody pp. set (u := pn * pn * O) in *. set (v := 2 * sn * a * O) in *. clearbody u v.
  nia.
Qed.

Lemma e_low c : linear_pos c ->
  price_num c * ONE - price_den c < e_val c * price_den c <= price_num c * ONE.
Proof.
  intros (_ & P1 & P2 & P3). unfold e_val. pose proof (div_bounds (price_num c * ONE) (price_den c) P3). nia.
Qed.

Lemma down_within c T a b : linear_pos c -> 0 < T -> slope_den c <= slope_num c * T ->
  0 <= a < 2 ^ 65 -> b_down c a = Val b -> cost2 c (Z.max 0 (b - T)) <= cost2_den c * a.
Proof.
  intros Hc HT HT1 Ha H. apply b_value_val in H; try assumption. destruct H as (r & R & -> & Zr & _).
  assert (D0 := disc_bounds c a Hc Ha).
  assert (U0 : is_u256 (disc c a)) by (unfold is_u256, u256_max; lia).
  destruct (dfs_sqrt_down_spec _ _ U0 R) as (_ & Hd & _).
  pose proof (proj2 (disc_low c a Hc)) as HD. pose proof (e_low c Hc) as HE.
  pose proof (e_val_bounds c Hc) as HE0. pose proof (cost2_den_pos c Hc) as HR.
  destruct (Z.le_gt_cases (b_of_root c r) T) as [Hle | Hgt].
  { rewrite Z.max_l, cost2_0 by lia. nia. }
  rewrite Z.max_r by lia. clear HR.
  destruct Hc as (Hwf & H1 & H2 & H3). destruct Hwf as (_ & _ & Hp & _). unfold is_u64 in Hp.
  pose proof ONE_pos as HO. unfold cost2, cost2_den, cost_den, exact_disc, b_of_root in *.
  set (sn := slope_num c) in *. set (sd := slope_den c) in *. set (pn := price_num c) in *.
  set (pd := price_den c) in *. set (e := e_val c) in *. set (D := disc c a) in *.
  set (O := ONE) in *. clearbody O. assert (He : 0 <= e) by lia.
  clearbody e D. clear HE0 U0 D0 R.
  assert (Hre : e < r).
  { destruct (Z.le_gt_cases r e) as [L | L]; [| exact L]. rewrite Z.max_l, Z.mul_0_l, Z.div_0_l in Hgt by lia. lia. }
  rewrite Z.max_r in * by lia.
  pose proof (div_bounds ((r - e) * sd) sn H1) as HB.
  set (B := (r - e) * sd / sn) in *. clearbody B.
  set (x := B - T) in *. assert (Hx : 0 < x) by lia.
  assert (HX0 : 0 <= sn * x * pd + pn * O * sd) by nia.
  assert (HX1 : sn * x * pd + pn * O * sd <= r * sd * pd).
  { assert (sn * x + sd <= (r - e) * sd) by (unfold x; nia).
    assert ((sn * x + sd) * pd <= (r - e) * sd * pd) by (apply Z.mul_le_mono_nonneg_r; lia).
    assert (pn * O * sd <= (e * pd + pd) * sd) by (apply Z.mul_le_mono_nonneg_r; lia). lia. }
  assert (HX : (sn * x * pd + pn * O * sd) * (sn * x * pd + pn * O * sd) <= (r * sd * pd) * (r * sd * pd))
    by (apply Z.mul_le_mono_nonneg; lia).
  assert (HX2 : (r * sd * pd) * (r * sd * pd) <= O * sd * (D * (pd * pd * sd))).
  { replace (r * sd * pd * (r * sd * pd)) with (r * r * (sd * sd * (pd * pd))) by ring.
    replace (O * sd * (D * (pd * pd * sd))) with (D * O * (sd * sd * (pd * pd))) by ring.
    apply Z.mul_le_mono_nonneg_r; [nia | exact Hd]. }
  assert (HX3 : O * sd * (D * (pd * pd * sd)) <= O * sd * (O * (pn * pn * sd + 2 * sn * a * pd * pd)))
    by (apply Z.mul_le_mono_nonneg_l; [nia | exact HD]).
  apply (Z.mul_le_mono_pos_l _ _ (sn * pd)); [nia |].
  replace (sn * pd * (2 * sd * pd * O * O * a)) with (O * sd * (2 * sn * a * pd * pd * O)) by ring.
  replace (sn * pd * (sn * pd * x * x + 2 * sd * pn * x * O))
    with ((sn * x * pd) * (sn * x * pd) + 2 * (sn * x * pd) * (pn * O * sd)) by ring.
  replace ((sn * x * pd + pn * O * sd) * (sn * x * pd + pn * O * sd))
    with ((sn * x * pd) * (sn * x * pd) + 2 * (sn * x * pd) * (pn * O * sd) + O * sd * (pn * pn * sd * O))
    in HX by ring.
  lia.
Qed.

Lemma down_near c T a b : linear_pos c -> fine c T -> 0 <= a < 2 ^ 65 -> b_down c a = Val b ->
  cost2 c (Z.max 0 (b - T)) <= cost2_den c * a.
Proof. intros Hc (HT & HT1 & _). apply down_within; assumption. Qed.

(** A position whose cost exceeds the holdings by less than 2 * 10^-18 units lies
    at most [T] above [b_up]. *)
Lemma up_near c T a b x : linear_pos c -> fine c T -> 0 <= a < 2 ^ 65 -> b_up c a = Val b ->
  HALF <= x -> T <= x -> cost2 c x <= cost2_den c * a + 2 * (cost_den c * ONE) -> x <= b + T.
Proof.
  intros Hc (HT & _ & HT2) Ha H Hx HTx Hcost. destruct (b_up_root c a b Hc Ha H) as (r & Hb & Zr & Hd & _).
  pose proof (b_up_bounds c a b Hc Ha H) as Hb0.
  destruct (Z.le_gt_cases x (b + T)) as [L | G]; [exact L | exfalso].
  pose proof (proj1 (disc_low c a Hc)) as HD. pose proof (proj2 (e_low c Hc)) as HE.
  pose proof (e_val_bounds c Hc) as HE0.
  destruct Hc as (Hwf & H1 & H2 & H3). destruct Hwf as (_ & _ & Hp & _). unfold is_u64 in Hp.
  pose proof ONE_pos as HO. unfold cost2, cost2_den, cost_den, exact_disc in *.
  assert (HH : 2 * HALF = ONE) by (vm_compute; reflexivity).
  set (h := HALF) in *. clearbody h.
  set (sn := slope_num c) in *. set (sd := slope_den c) in *. set (pn := price_num c) in *.
  set (pd := price_den c) in *. set (D := disc c a) in *.
  assert (HB : (r - e_val c) * sd < sn * (b + 1)).
  { rewrite Hb. unfold b_of_root. fold sd sn. pose proof (div_bounds (Z.max 0 (r - e_val c) * sd) sn H1).
    assert ((r - e_val c) * sd <= Z.max 0 (r - e_val c) * sd) by (apply Z.mul_le_mono_nonneg_r; lia). lia. }
  set (e := e_val c) in *. set (O := ONE) in *. clearbody O e D. clear H Hb.
  set (X := sn * pd * x + pn * O * sd). set (d := sn * pd * (T - 1)).
  assert (Hd0 : 0 <= d) by (unfold d; apply Z.mul_nonneg_nonneg; nia).
  assert (HdX : d <= X).
  { unfold d, X. assert (sn * pd * (T - 1) <= sn * pd * x) by (apply Z.mul_le_mono_nonneg_l; nia).
    assert (0 <= pn * O * sd) by (repeat apply Z.mul_nonneg_nonneg; lia). lia. }
  assert (HXl : (sn * pd + pn * sd) * h <= X).
  { unfold X. assert (sn * pd * h <= sn * pd * x) by (apply Z.mul_le_mono_nonneg_l; nia).
    assert (pn * sd * h <= pn * sd * O) by (apply Z.mul_le_mono_nonneg_l; nia). lia. }
  assert (HY : r * sd * pd < X - d).
  { assert (r * sd + 1 <= sn * (x - T + 1) + e * sd) by nia.
    assert ((r * sd + 1) * pd <= (sn * (x - T + 1) + e * sd) * pd) by (apply Z.mul_le_mono_nonneg_r; lia).
    assert (e * pd * sd <= pn * O * sd) by (apply Z.mul_le_mono_nonneg_r; lia).
    unfold X, d. lia. }
  assert (HY2 : (r * sd * pd) * (r * sd * pd) < (X - d) * (X - d)).
  { assert (0 <= r * sd * pd) by (repeat apply Z.mul_nonneg_nonneg; lia). apply Z.mul_lt_mono_nonneg; lia. }
  assert (HL : D * O * (sd * sd * (pd * pd)) <= (r * sd * pd) * (r * sd * pd)).
  { replace (r * sd * pd * (r * sd * pd)) with (r * r * (sd * sd * (pd * pd))) by ring.
    apply Z.mul_le_mono_nonneg_r; [nia | exact Hd]. }
  assert (HL2 : O * sd * (O * (pn * pn * sd + 2 * sn * a * pd * pd) - 2 * (pd * pd * sd)) <= O * sd * (D * (pd * pd * sd))).
  { apply Z.mul_le_mono_nonneg_l; [nia | exact HD]. }
  assert (HC : sn * pd * (sn * pd * x * x + 2 * sd * pn * x * O) <=
               sn * pd * (2 * sd * pd * O * O * a + 2 * (2 * sd * pd * O))) by (apply Z.mul_le_mono_nonneg_l; [nia | exact Hcost]).
  assert (HXX : X * X = sn * pd * (sn * pd * x * x + 2 * sd * pn * x * O) + O * sd * (O * (pn * pn * sd)))
    by (unfold X; ring).
  assert (HG : d * d <= X * d) by (apply Z.mul_le_mono_nonneg_r; assumption).
  assert (Hmain : O * pd * pd * sd * (4 * sn + 2 * sd) <= X * d).
  { apply Z.le_trans with ((sn * pd + pn * sd) * h * d).
    - unfold d.
      assert (Y : h * pd * (4 * pd * sd * (2 * sn + sd)) <= h * pd * ((sn * pd + pn * sd) * sn * (T - 1)))
        by (apply Z.mul_le_mono_nonneg_l; [nia | exact HT2]).
      replace O with (2 * h) by lia. lia.
    - apply Z.mul_le_mono_nonneg_r; assumption. }
  assert (HS : O * sd * (D * (pd * pd * sd)) < (X - d) * (X - d)).
  { replace (O * sd * (D * (pd * pd * sd))) with (D * O * (sd * sd * (pd * pd))) by ring. lia. }
  replace ((X - d) * (X - d)) with (X * X - 2 * (X * d) + d * d) in HS by ring. rewrite HXX in HS.
  clear - HS HL2 HC HG Hmain. set (Xd := X * d) in *. set (dd := d * d) in *. clearbody Xd dd. lia.
Qed.

Lemma cden_pos c : linear_pos c -> 0 < cost_den c * ONE.
Proof. intros (_ & _ & P2 & P3). unfold cost_den. pose proof ONE_pos. repeat apply Z.mul_pos_pos; lia. Qed.

Lemma cost2_den_eq c : cost2_den c = cost_den c * ONE * ONE.
Proof. reflexivity. Qed.

Lemma area_near c x h : linear_pos c -> 0 <= x -> area c x <= h ->
  cost2 c x <= cost_den c * ONE * h + 2 * (cost_den c * ONE).
Proof.
  intros Hc Hx Ha. destruct (area_exact c x Hc Hx) as [_ X].
  replace (2 * ONE * slope_den c * price_den c) with (cost_den c * ONE) in X by (unfold cost_den; ring).
  pose proof (cden_pos c Hc). set (G := cost_den c * ONE) in *. clearbody G. nia.
Qed.

(** Going back by 2 T from a whole token more than makes up for 2 * 10^-18 units. *)
Lemma step_back c T x : linear_pos c -> fine c T -> 4 * T <= ONE -> ONE <= x ->
  cost2 c (x - 2 * T) + 2 * (cost_den c * ONE) <= cost2 c x.
Proof.
  intros Hc (HT & _ & HT2) H4 Hx. pose proof (cost2_slope c (x - 2 * T) x Hc ltac:(lia)) as [S _].
  destruct Hc as (Hwf & H1 & H2 & H3). destruct Hwf as (_ & _ & Hp & _). unfold is_u64 in Hp.
  pose proof ONE_pos as HO. unfold cost_den, price_num_at in *.
  set (sn := slope_num c) in *. set (sd := slope_den c) in *. set (pn := price_num c) in *.
  set (pd := price_den c) in *. set (O := ONE) in *. clearbody O.
  set (u := sn * pd + pn * sd) in *.
  assert (Hu : 0 < u) by (unfold u; nia).
  assert (A1 : 4 * pd * sd <= u * (T - 1)).
  { assert (Y : 4 * pd * sd * sn <= u * (T - 1) * sn).
    { assert (0 <= 4 * pd * sd * (sn + sd)) by (repeat apply Z.mul_nonneg_nonneg; lia). lia. }
    apply Z.mul_le_mono_pos_r in Y; assumption. }
  assert (A2 : u * O <= 2 * (pn * sd * O + sn * pd * (x - 2 * T))).
  { assert (0 <= pn * sd * O) by (repeat apply Z.mul_nonneg_nonneg; lia).
    assert (sn * pd * O <= sn * pd * (2 * (x - 2 * T))) by (apply Z.mul_le_mono_nonneg_l; [nia | lia]).
    unfold u. lia. }
  set (P := pn * sd * O + sn * pd * (x - 2 * T)) in *. clearbody P.
  replace (x - (x - 2 * T)) with (2 * T) in S by ring.
  assert (A3 : u * O * T <= 2 * P * T) by (apply Z.mul_le_mono_nonneg_r; lia).
  assert (A4 : 4 * pd * sd * O <= u * (T - 1) * O) by (apply Z.mul_le_mono_nonneg_r; lia).
  assert (A5 : 0 <= u * O) by nia. lia.
Qed.

(** ** One step *)
Definition near (c : linear_curve) (tol M : Z) (st : lpool) : Prop :=
  forall a b, held st <= a <= u64_max -> b_up c a = Val b -> M - left st * ONE <= b + tol.

Definition slack (st : lpool) (x y : Z) : Z := if left st =? 0 then x else y.

(** [T']: how far the position may lag behind after a sell-out; [S]: what may be missing then. *)
Definition covered (c : linear_curve) (T T' S M : Z) (st : lpool) : Prop :=
  near c (slack st T' T) M st /\
  cost2 c (Z.max 0 (M - left st * ONE - 2 * T)) <= cost2_den c * held st + slack st S 0.

Definition absorbs (c : linear_curve) (T T' S M : Z) : Prop :=
  forall a, 0 <= a -> 2 * area c (Z.max 0 (M - T)) < (2 * a + 1) * ONE ->
    (forall a' b, a <= a' <= u64_max -> b_up c a' = Val b -> M <= b + T') /\
    cost2 c (Z.max 0 (M - 2 * T)) <= cost2_den c * a + S.

Lemma slack_pos st x y : 0 < left st -> slack st x y = y.
Proof. intros H. unfold slack. replace (left st =? 0) with false by (symmetry; apply Z.eqb_neq; lia). reflexivity. Qed.

Lemma slack_le st x y z : y <= z -> x <= z -> slack st x y <= z.
Proof. unfold slack. destruct (_ =? _); auto. Qed.

Lemma slack_ge st x y z : z <= y -> z <= x -> z <= slack st x y.
Proof. unfold slack. destruct (_ =? _); auto. Qed.

Lemma b_down_le_up c a a' b b' : linear_pos c -> 0 <= a -> a <= a' -> a' < 2 ^ 65 ->
  b_down c a = Val b -> b_up c a' = Val b' -> b <= b'.
Proof.
  intros Hc Ha Hle Ha' H H'.
  apply b_value_val in H; [| assumption | lia]. destruct H as (r & R & -> & Zr & _).
  assert (D0 := disc_bounds c a Hc ltac:(lia)). assert (U0 : is_u256 (disc c a)) by (unfold is_u256, u256_max; lia).
  destruct (dfs_sqrt_down_spec _ _ U0 R) as (_ & Hd & _).
  destruct (b_up_root c a' b' Hc ltac:(lia) H') as (r' & -> & Zr' & Hd' & _).
  assert (disc c a <= disc c a').
  { destruct Hc as (Hw & P1 & P2 & P3). unfold disc.
    assert (2 * slope_num c * a * ONE / slope_den c <= 2 * slope_num c * a' * ONE / slope_den c).
    { apply Z.div_le_mono; [lia |]. pose proof ONE_pos.
      replace (2 * slope_num c * a * ONE) with (2 * slope_num c * ONE * a) by ring.
      replace (2 * slope_num c * a' * ONE) with (2 * slope_num c * ONE * a') by ring.
      apply Z.mul_le_mono_nonneg_l; [nia | lia]. }
    lia. }
  assert (r <= r').
  { pose proof ONE_pos. apply Z.square_le_simpl_nonneg; [lia |].
    assert (disc c a * ONE <= disc c a' * ONE) by (apply Z.mul_le_mono_nonneg_r; lia). lia. }
  unfold b_of_root. destruct Hc as (Hw & P1 & P2 & P3). apply Z.div_le_mono; [lia |].
  apply Z.mul_le_mono_nonneg_r; lia.
Qed.

Lemma whole_le W e t : t < ONE -> W * ONE <= e * ONE + t -> W <= e.
Proof. intros H1 H2. pose proof ONE_pos. nia. Qed.

Lemma lstep_covered c f T T' S D st o :
  linear_pos c -> feeless f -> fine c T -> 4 * T <= ONE -> T <= T' <= HALF ->
  0 <= S <= 2 * price_num c * slope_den c * ONE * ONE ->
  pool_u64 st -> 0 <= D ->
  (absorbs c T T' S (D * ONE) \/ ~ sells_out c f st o) ->
  covered c T T' S (D * ONE) st -> covered c T T' S (D * ONE) (lstep c f st o).
Proof.
  intros Hp Hf HF H4 HT' HS Hu HD Hsus HB. pose proof (proj1 Hp) as Hc. pose proof Hu as (U1 & U2).
  pose proof ONE_pos as HO. pose proof HALF_ONE as HH. pose proof (proj1 HF) as HT0.
  pose proof (cost2_den_pos c Hp) as HR. pose proof (cden_pos c Hp) as HG.
  destruct o as [s | n | x | x | x].
  - unfold sells_out in Hsus.
    cbn [lstep] in *. destruct (curve_swap _ _ _ _ _ _) as [r | |] eqn:E; try exact HB.
    destruct (0 <=? s) eqn:E1; cbn [andb] in *; [| exact HB].
    destruct (s <=? u64_max) eqn:E2; cbn [andb] in *; [| exact HB].
    destruct (new_swap_source_amount r <=? u64_max) eqn:E3; [| exact HB].
    apply Z.leb_le in E1, E2, E3. cbn [held left] in *.
    assert (Hs : is_u64 s) by (unfold is_u64; lia).
    apply feeless_swap in E; try assumption. destruct E as (E & _ & _ & HDr & N & Nd & _).
    cbn [swap_without_fees] in E.
    pose proof (linear_swap_bounds _ _ _ _ _ _ _ Hc Hs U1 U2 E) as (B1 & B2 & _).
    pose proof E as E'. apply linear_swap_a_to_b in E'; try assumption.
    destruct E' as (_ & Psrc & Pdst & b0 & Hb0 & Hcase).
    unfold is_u64, u64_max in *.
    destruct HB as [HB HK]. rewrite slack_pos in HB, HK by lia.
    assert (Hz : D * ONE - left st * ONE <= b0 + T) by (apply (HB (held st)); [unfold u64_max; lia | exact Hb0]).
    pose proof (b_up_bounds c (held st) _ Hp ltac:(lia) Hb0) as Bb.
    destruct Hcase as [(Hdst & Hsrc & Hsold) | (Hsrc & _ & b1 & D1 & Hle & Hdst & _)].
    + destruct Hsus as [Hsus | Hno].
      2:{ exfalso. apply Hno. exists s. split; [reflexivity |]. lia. }
      destruct Hsold as (S1 & S2 & S3 & _).
      unfold covered, near, slack. cbn [held left]. rewrite Nd, N, Hdst, Z.sub_diag, Z.eqb_refl, Z.mul_0_l, Z.sub_0_r.
      assert (Har : area c (Z.max 0 (D * ONE - T)) <= area c (b0 + left st * ONE)).
      { apply area_mono; [exact Hp |]. lia. }
      apply Hsus; lia.
    + rewrite Hsrc in N. assert (L1 : destination_amount_swapped r * ONE <= b1 - b0).
      { rewrite Hdst. pose proof (div_bounds (b1 - b0) ONE HO). lia. }
      assert (Hpos : D * ONE - new_swap_destination_amount r * ONE <= b1 + T) by (rewrite Nd; lia).
      rewrite N in E3 |- *.
      split.
      * intros a b Ha Hb. cbn [held left] in *.
        pose proof (b_down_le_up c (held st + s) a b1 b Hp ltac:(lia) ltac:(lia) ltac:(unfold u64_max in *; lia) D1 Hb) as X.
        eapply Z.le_trans; [exact Hpos |]. apply Z.add_le_mono; [exact X |]. apply slack_ge; lia.
      * cbn [held left].
        pose proof (down_near c T (held st + s) b1 Hp HF ltac:(lia) D1) as X.
        assert (0 <= slack (mk_lpool (held st + s) (new_swap_destination_amount r) (sold st + destination_amount_swapped r)) S 0)
          by (apply slack_ge; lia).
        pose proof (cost2_mono c (Z.max 0 (D * ONE - new_swap_destination_amount r * ONE - 2 * T)) (Z.max 0 (b1 - T)) Hp ltac:(lia)).
        lia.
  - cbn [lstep]. destruct (curve_swap _ _ _ _ _ _) as [r | |] eqn:E; try exact HB.
    destruct (0 <=? n) eqn:E1; cbn [andb]; [| exact HB].
    destruct (n <=? u64_max) eqn:E2; cbn [andb]; [| exact HB].
    destruct (new_swap_source_amount r <=? u64_max) eqn:E3; [| exact HB].
    apply Z.leb_le in E1, E2, E3. cbn [held left] in *.
    assert (Hs : is_u64 n) by (unfold is_u64; lia).
    apply feeless_swap in E; try assumption. destruct E as (E & _ & _ & HDr & N & Nd & _).
    cbn [swap_without_fees] in E.
    pose proof (linear_swap_bounds _ _ _ _ _ _ _ Hc Hs U2 U1 E) as (B1 & B2 & _).
    apply linear_swap_b_to_a in E; try assumption.
    destruct E as (_ & Psrc & Pdst & b0 & Hb0 & Hcase).
    unfold is_u64, u64_max in *.
    destruct HB as [HB HK].
    assert (Hz : D * ONE - left st * ONE <= b0 + HALF).
    { eapply Z.le_trans; [apply (HB (held st)); [unfold u64_max; lia | exact Hb0] |].
      apply Z.add_le_mono_l. apply slack_le; lia. }
    clear HB HK. rewrite N, Nd.
    assert (Hzero : D <= left st + source_amount_swapped r ->
      covered c T T' S (D * ONE) (mk_lpool (held st - destination_amount_swapped r) (left st + source_amount_swapped r) (sold st - source_amount_swapped r))).
    { intros Hle. assert (D * ONE <= (left st + source_amount_swapped r) * ONE) by (apply Z.mul_le_mono_nonneg_r; lia).
      split.
      - intros a b Ha Hb. cbn [held left] in *. unfold u64_max in *.
        pose proof (b_up_bounds c a b Hp ltac:(lia) Hb). rewrite slack_pos by (cbn [left]; lia). lia.
      - cbn [held left]. rewrite slack_pos by (cbn [left]; lia). rewrite Z.max_l, cost2_0 by lia.
        assert (0 <= cost2_den c * (held st - destination_amount_swapped r)) by (apply Z.mul_nonneg_nonneg; lia). lia. }
    destruct Hcase as [(Hlt & Hsrc & Hdst) | (Hge & Hsrc & Har & He & _ & Hdst)].
    + apply Hzero. set (src := source_amount_swapped r) in *. clearbody src.
      assert (2 * (D - left st) * ONE < 2 * (src + 1) * ONE) by lia. nia.
    + unfold end_position in *.
      assert (Hcd : b0 - n * ONE <= cdivup (b0 - n * ONE) ONE * ONE) by (apply cdivup_spec; lia).
      set (e := cdivup (b0 - n * ONE) ONE) in *. clearbody e.
      assert (He0 : 0 <= e) by nia.
      assert (HW : D - (left st + n) <= e) by (apply (whole_le _ _ HALF); lia).
      destruct (Z.eq_dec e 0) as [He00 | He1].
      { apply Hzero. lia. }
      assert (He2 : ONE <= e * ONE) by nia.
      assert (Harea : area c (e * ONE) <= (held st - destination_amount_swapped r) * ONE).
      { rewrite Hdst. pose proof (div_bounds (held st * ONE - area c (e * ONE)) ONE HO). lia. }
      pose proof (area_near c (e * ONE) _ Hp ltac:(lia) Harea) as Hcost.
      set (h := held st - destination_amount_swapped r) in *.
      assert (Hh : 0 <= h) by (unfold h; lia).
      replace (cost_den c * ONE * (h * ONE)) with (cost2_den c * h) in Hcost by (unfold cost2_den; ring).
      assert (HWO : D * ONE - (left st + source_amount_swapped r) * ONE <= e * ONE).
      { rewrite Hsrc. assert ((D - (left st + n)) * ONE <= e * ONE) by (apply Z.mul_le_mono_nonneg_r; lia). lia. }
      split.
      * intros a b Ha Hb. cbn [held left] in *. unfold u64_max in *. rewrite slack_pos by (cbn [left]; lia).
        assert (cost2_den c * h <= cost2_den c * a) by (apply Z.mul_le_mono_nonneg_l; lia).
        pose proof (up_near c T a b (e * ONE) Hp HF ltac:(lia) Hb ltac:(lia) ltac:(lia) ltac:(lia)). lia.
      * cbn [held left]. rewrite slack_pos by (cbn [left]; lia).
        pose proof (step_back c T (e * ONE) Hp HF H4 He2) as X.
        pose proof (cost2_mono c (Z.max 0 (D * ONE - (left st + source_amount_swapped r) * ONE - 2 * T)) (e * ONE - 2 * T) Hp ltac:(lia)).
        lia.
  - unfold lstep in *. destruct (0 <=? x) eqn:E1; cbn [andb]; [| exact HB].
    destruct (_ <=? u64_max) eqn:E2; [| exact HB]. apply Z.leb_le in E1, E2. destruct HB as [HB HK].
    split.
    + intros a b Ha Hb. cbn [held left] in *. apply (HB a b); [lia | exact Hb].
    + cbn [held left]. unfold slack in *. cbn [left].
      assert (0 <= cost2_den c * x) by (apply Z.mul_nonneg_nonneg; lia). lia.
  - unfold lstep in *. destruct (0 <=? x) eqn:E1; cbn [andb]; [| exact HB].
    destruct (_ <=? u64_max) eqn:E2; [| exact HB]. apply Z.leb_le in E1, E2. unfold is_u64 in U1, U2.
    destruct (Z.eq_dec x 0) as [-> | Hx].
    { rewrite Z.add_0_r, Z.sub_0_r. destruct st. exact HB. }
    destruct HB as [HB HK]. assert (ONE <= x * ONE) by nia.
    split.
    + intros a b Ha Hb. cbn [held left] in *. rewrite slack_pos by (cbn [left]; lia).
      specialize (HB a b Ha Hb). assert (slack st T' T <= HALF) by (apply slack_le; lia). lia.
    + cbn [held left]. rewrite slack_pos by (cbn [left]; lia).
      assert (HhR : 0 <= cost2_den c * held st) by (apply Z.mul_nonneg_nonneg; lia).
      destruct (Z.le_gt_cases (D * ONE - (left st + x) * ONE - 2 * T) 0) as [L | L].
      { rewrite Z.max_l, cost2_0 by lia. lia. }
      rewrite Z.max_r in * by lia.
      assert (HSl : slack st S 0 <= S) by (apply slack_le; lia).
      pose proof (cost2_slope c (D * ONE - (left st + x) * ONE - 2 * T) (D * ONE - left st * ONE - 2 * T) Hp ltac:(lia)) as [X _].
      assert (Y : 2 * price_num c * slope_den c * ONE * ONE <=
        2 * price_num_at c (D * ONE - (left st + x) * ONE - 2 * T) *
        (D * ONE - left st * ONE - 2 * T - (D * ONE - (left st + x) * ONE - 2 * T))).
      { replace (2 * price_num c * slope_den c * ONE * ONE) with (2 * (price_num c * slope_den c * ONE) * ONE) by ring.
        destruct Hp as ((_ & _ & Pn & _) & P1 & P2 & P3). unfold is_u64 in Pn.
        assert (Hb1 : 0 <= price_num c * slope_den c * ONE) by (repeat apply Z.mul_nonneg_nonneg; lia).
        assert (Hb2 : 0 <= slope_num c * price_den c * (D * ONE - (left st + x) * ONE - 2 * T)) by (repeat apply Z.mul_nonneg_nonneg; lia).
        apply Z.mul_le_mono_nonneg; unfold price_num_at; lia. }
      lia.
  - unfold lstep in *. destruct (0 <=? x) eqn:E1; cbn [andb]; [| exact HB].
    destruct (_ <=? u64_max) eqn:E2; [| exact HB]. apply Z.leb_le in E1, E2. unfold is_u64 in U1, U2.
    destruct (Z.eq_dec x 0) as [-> | Hx].
    { rewrite Z.add_0_r. destruct st. exact HB. }
    destruct HB as [HB HK]. assert (ONE <= x * ONE) by nia.
    split.
    + intros a b Ha Hb. cbn [held left] in *. rewrite slack_pos by (cbn [left]; lia).
      specialize (HB a b Ha Hb). assert (slack st T' T <= HALF) by (apply slack_le; lia). lia.
    + cbn [held left]. rewrite slack_pos by (cbn [left]; lia).
      assert (HhR : 0 <= cost2_den c * held st) by (apply Z.mul_nonneg_nonneg; lia).
      destruct (Z.le_gt_cases (D * ONE - (left st + x) * ONE - 2 * T) 0) as [L | L].
      { rewrite Z.max_l, cost2_0 by lia. lia. }
      rewrite Z.max_r in * by lia.
      assert (HSl : slack st S 0 <= S) by (apply slack_le; lia).
      pose proof (cost2_slope c (D * ONE - (left st + x) * ONE - 2 * T) (D * ONE - left st * ONE - 2 * T) Hp ltac:(lia)) as [X _].
      assert (Y : 2 * price_num c * slope_den c * ONE * ONE <=
        2 * price_num_at c (D * ONE - (left st + x) * ONE - 2 * T) *
        (D * ONE - left st * ONE - 2 * T - (D * ONE - (left st + x) * ONE - 2 * T))).
      { replace (2 * price_num c * slope_den c * ONE * ONE) with (2 * (price_num c * slope_den c * ONE) * ONE) by ring.
        destruct Hp as ((_ & _ & Pn & _) & P1 & P2 & P3). unfold is_u64 in Pn.
        assert (Hb1 : 0 <= price_num c * slope_den c * ONE) by (repeat apply Z.mul_nonneg_nonneg; lia).
        assert (Hb2 : 0 <= slope_num c * price_den c * (D * ONE - (left st + x) * ONE - 2 * T)) by (repeat apply Z.mul_nonneg_nonneg; lia).
        apply Z.mul_le_mono_nonneg; unfold price_num_at; lia. }
      lia.
Qed.

(** ** Whole histories *)
Lemma start_covered c T T' S A B x : linear_pos c -> fine c T -> 4 * T <= ONE -> T <= T' -> 0 <= S ->
  is_u64 A -> is_u64 B -> 0 <= x -> cost_num c x <= cost_den c * A ->
  covered c T T' S ((x + B) * ONE) (mk_lpool A B x).
Proof.
  intros Hp HF H4 HT HS UA UB Hx Hc. pose proof ONE_pos as HO. pose proof HALF_ONE as HH. pose proof (proj1 HF) as HT0.
  unfold is_u64 in *. unfold covered, near. cbn [held left].
  replace ((x + B) * ONE - B * ONE) with (x * ONE) by ring.
  assert (HR : cost2 c (x * ONE) <= cost2_den c * A) by (rewrite cost2_whole; unfold cost2_den; nia).
  pose proof (cost2_den_pos c Hp) as HD. pose proof (cden_pos c Hp) as HG.
  split.
  - intros a b Ha Hb. unfold u64_max in *. pose proof (b_up_bounds c a b Hp ltac:(lia) Hb).
    eapply Z.le_trans with (b + T); [| apply Z.add_le_mono_l; apply slack_ge; lia].
    destruct (Z.eq_dec x 0) as [-> | Hx0]; [lia |]. assert (ONE <= x * ONE) by nia.
    assert (cost2_den c * A <= cost2_den c * a) by (apply Z.mul_le_mono_nonneg_l; lia).
    apply (up_near c T a b (x * ONE) Hp HF ltac:(lia) Hb); lia.
  - assert (0 <= slack (mk_lpool A B x) S 0) by (apply slack_ge; lia).
    assert (0 <= cost2_den c * A) by (apply Z.mul_nonneg_nonneg; lia).
    destruct (Z.eq_dec x 0) as [-> | Hx0]; [rewrite Z.max_l, cost2_0 by lia; lia |]. assert (ONE <= x * ONE) by nia.
    rewrite Z.max_r by lia. pose proof (cost2_mono c (x * ONE - 2 * T) (x * ONE) Hp ltac:(lia)). lia.
Qed.

Lemma covered_topup c T M A B x y : covered c T T 0 M (mk_lpool A B x) -> covered c T T 0 (M + y * ONE) (mk_lpool A (B + y) x).
Proof.
  unfold covered, near, slack. cbn [held left]. intros [H1 H2]. split.
  - intros a b Ha Hb. specialize (H1 a b Ha Hb). destruct (B =? 0), (B + y =? 0); lia.
  - replace (M + y * ONE - (B + y) * ONE - 2 * T) with (M - B * ONE - 2 * T) by ring.
    destruct (B =? 0), (B + y =? 0); exact H2.
Qed.

Lemma covered_run c f T st ops :
  linear_pos c -> feeless f -> fine c T -> 4 * T <= ONE -> pool_u64 st -> 0 <= total st ->
  covered c T T 0 (total st * ONE) st ->
  (forall pre o post, ops = pre ++ o :: post -> ~ sells_out c f (lrun c f st pre) o) ->
  let st' := lrun c f st ops in pool_u64 st' /\ 0 <= total st' /\ covered c T T 0 (total st' * ONE) st'.
Proof.
  intros Hp Hf HF H4 Hu Ht Hb. cbv zeta. revert st Hu Ht Hb.
  induction ops as [| o ops IH]; intros st Hu Ht Hb Hno; [cbn; auto |].
  change (lrun c f st (o :: ops)) with (lrun c f (lstep c f st o) ops).
  assert (Hns : ~ sells_out c f st o) by (apply (Hno [] o ops eq_refl)).
  pose proof (lstep_total c f st o Hf) as T1.
  pose proof (lstep_u64 c f st o (proj1 Hp) Hf Hu) as U.
  pose proof HALF_ONE as HH. pose proof (proj1 HF) as HT0. pose proof ONE_pos as HO.
  assert (HPp : 0 <= 2 * price_num c * slope_den c * ONE * ONE).
  { destruct Hp as ((_ & _ & Pn & _) & P1 & P2 & P3). unfold is_u64 in Pn. repeat apply Z.mul_nonneg_nonneg; lia. }
  pose proof (lstep_covered c f T T 0 (total st) st o Hp Hf HF H4 ltac:(lia) ltac:(lia) Hu Ht (or_intror Hns) Hb) as B.
  apply IH.
  - exact U.
  - destruct o; try lia. pose proof (topup_left c f st x). lia.
  - rewrite T1. destruct o; try (rewrite Z.add_0_r; exact B).
    cbn [lstep] in *. destruct (_ && _); cbn [left held] in *.
    + replace ((total st + (left st + x - left st)) * ONE) with (total st * ONE + x * ONE) by ring.
      apply covered_topup. destruct st. exact Hb.
    + replace (total st + (left st - left st)) with (total st) by ring. exact Hb.
  - intros pre o' post E. apply (Hno (o :: pre) o' post). rewrite E. reflexivity.
Qed.

Lemma covered_exact c T st : covered c T T 0 (total st * ONE) st ->
  cost2 c (Z.max 0 (sold st * ONE - 2 * T)) <= cost2_den c * held st.
Proof.
  intros [_ H]. unfold total, slack in H. replace ((sold st + left st) * ONE - left st * ONE) with (sold st * ONE) in H by ring.
  destruct (_ =? _) in H; lia.
Qed.

(** ** Sell-outs *)
Definition short (c : linear_curve) : Z := cost_den c * ONE * (HALF + 2).

Lemma costly_small c T : linear_pos c -> costly c T -> 4 * T < ONE /\ (0 < T -> price_den c <= price_num c) /\
  price_den c * (HALF + 2) <= price_num c * (HALF - 2 * T).
Proof.
  intros ((_ & _ & Pn & _) & _ & _ & P3) H. unfold is_u64, costly in *. change ONE with (10 ^ 18). change HALF with (5 * 10 ^ 17).
  assert (H0 : 0 < (10 ^ 18 + 4) * price_den c) by (apply Z.mul_pos_pos; lia).
  assert (4 * T < 10 ^ 18) by nia. repeat split; [assumption | | lia].
  intros HT. assert (price_num c * (10 ^ 18 - 4 * T) <= price_num c * 10 ^ 18) by (apply Z.mul_le_mono_nonneg_l; lia). lia.
Qed.

Lemma absorbs_costly c T D : linear_pos c -> fine c T -> costly c T -> 0 <= D ->
  absorbs c T HALF (short c) (D * ONE).
Proof.
  intros Hp HF Hcy HD a Ha Har. pose proof (proj1 HF) as HT0. pose proof ONE_pos as HO. pose proof HALF_ONE as HH.
  pose proof (cost2_den_pos c Hp) as HR. pose proof (cden_pos c Hp) as HG.
  assert (HS : 0 <= short c) by (unfold short; apply Z.mul_nonneg_nonneg; lia).
  destruct (Z.eq_dec D 0) as [-> | HD0].
  { split.
    - intros a' b Ha' Hb. unfold u64_max in *. pose proof (b_up_bounds c a' b Hp ltac:(lia) Hb).
      lia.
    - rewrite Z.mul_0_l, Z.max_l, cost2_0 by lia. nia. }
  assert (HD1 : ONE <= D * ONE) by nia.
  destruct (costly_small c T Hp Hcy) as (HT1 & _ & Z3).
  rewrite Z.max_r in Har by lia.
  assert (Har2 : area c (D * ONE - T) <= a * ONE + HALF) by lia.
  pose proof (area_near c (D * ONE - T) _ Hp ltac:(lia) Har2) as Hcost.
  replace (cost_den c * ONE * (a * ONE + HALF) + 2 * (cost_den c * ONE)) with (cost2_den c * a + short c) in Hcost
    by (unfold short, cost2_den; ring).
  split.
  2:{ rewrite Z.max_r by lia. pose proof (cost2_mono c (D * ONE - 2 * T) (D * ONE - T) Hp ltac:(lia)). lia. }
  intros a' b Ha' Hb. set (U := HALF - 2 * T) in *.
  assert (HUb : 0 < U /\ 2 * T + U = HALF) by (unfold U; lia). clearbody U.
  set (x := D * ONE - T - U).
  assert (Hx : HALF <= x) by (unfold x; lia).
  assert (Hcx : cost2 c x <= cost2_den c * a).
  { pose proof (cost2_slope c x (D * ONE - T) Hp ltac:(unfold x; lia)) as [X _].
    replace (D * ONE - T - x) with U in X by (unfold x; ring).
    assert (Y : short c <= 2 * price_num_at c x * U).
    { unfold short, price_num_at, cost_den. destruct Hp as ((_ & _ & Pn & _) & P1 & P2 & P3). unfold is_u64 in Pn.
      assert (Z1 : 0 <= slope_num c * price_den c * x) by (repeat apply Z.mul_nonneg_nonneg; lia).
      assert (Z2 : 0 <= slope_num c * price_den c * x * U) by (apply Z.mul_nonneg_nonneg; lia).
      assert (Z4 : 2 * slope_den c * ONE * (price_den c * (HALF + 2)) <= 2 * slope_den c * ONE * (price_num c * U))
        by (apply Z.mul_le_mono_nonneg_l; [apply Z.mul_nonneg_nonneg; lia | exact Z3]).
      lia. }
    lia. }
  assert (cost2_den c * a <= cost2_den c * a') by (apply Z.mul_le_mono_nonneg_l; lia).
  pose proof (up_near c T a' b x Hp HF ltac:(unfold u64_max in *; lia) Hb Hx ltac:(lia) ltac:(lia)). unfold x in *. lia.
Qed.

Lemma covered_run_always c f T st ops :
  linear_pos c -> feeless f -> fine c T -> costly c T -> pool_u64 st -> 0 <= total st ->
  Forall no_topup ops -> covered c T HALF (short c) (total st * ONE) st ->
  let st' := lrun c f st ops in pool_u64 st' /\ covered c T HALF (short c) (total st' * ONE) st'.
Proof.
  intros Hp Hf HF Hcy Hu Ht Hops. cbv zeta. revert st Hu Ht. induction Hops as [| o ops Ho _ IH]; intros st Hu Ht Hb; [cbn; auto |].
  change (lrun c f st (o :: ops)) with (lrun c f (lstep c f st o) ops).
  assert (T1 : total (lstep c f st o) = total st) by (rewrite lstep_total by exact Hf; destruct o; try contradiction; lia).
  assert (HT0 := proj1 HF).
  destruct (costly_small c T Hp Hcy) as (HT1 & HPP & _). specialize (HPP HT0). pose proof HALF_ONE as HH.
  assert (HS : 0 <= short c <= 2 * price_num c * slope_den c * ONE * ONE).
  { unfold short, cost_den. destruct Hp as ((_ & _ & Pn & _) & P1 & P2 & P3). unfold is_u64 in Pn.
    assert (HHO : HALF + 2 <= ONE) by (vm_compute; discriminate). assert (HH0 : 0 <= HALF + 2) by (vm_compute; discriminate).
    pose proof ONE_pos as HO.
    split; [repeat apply Z.mul_nonneg_nonneg; lia |].
    replace (2 * price_num c * slope_den c * ONE * ONE) with (2 * slope_den c * price_num c * ONE * ONE) by ring.
    apply Z.mul_le_mono_nonneg; [repeat apply Z.mul_nonneg_nonneg; lia | | lia | lia].
    apply Z.mul_le_mono_nonneg_r; [lia |]. apply Z.mul_le_mono_nonneg_l; lia. }
  apply IH.
  - apply lstep_u64; [apply Hp | assumption | assumption].
  - rewrite T1. exact Ht.
  - rewrite T1. apply lstep_covered; try assumption.
    + lia.
    + lia.
    + left. apply absorbs_costly; assumption.
Qed.

Lemma covered_short c T st : linear_pos c -> covered c T HALF (short c) (total st * ONE) st ->
  cost2 c (Z.max 0 (sold st * ONE - 2 * T)) <= cost2_den c * (held st + 1) /\
  (left st <> 0 -> cost2 c (Z.max 0 (sold st * ONE - 2 * T)) <= cost2_den c * held st).
Proof.
  intros Hp [_ H]. unfold total in H. replace ((sold st + left st) * ONE - left st * ONE) with (sold st * ONE) in H by ring.
  pose proof (cden_pos c Hp) as HG. pose proof (cost2_den_pos c Hp).
  assert (short c <= cost2_den c).
  { unfold short, cost2_den. apply Z.mul_le_mono_nonneg_l; [lia |]. vm_compute; discriminate. }
  split.
  - assert (slack st (short c) 0 <= cost2_den c) by (apply slack_le; lia). lia.
  - intros N. unfold slack in H. replace (left st =? 0) with false in H by (symmetry; apply Z.eqb_neq; exact N). lia.
Qed.

(** Where 2 T tokens cost less than the granularity of costs, nothing is lost at all. *)
Lemma whole_exact c T x h : linear_pos c -> 0 < T -> 4 * T <= ONE -> 0 <= h -> 4 * T * price_num_at c (x * ONE) < ONE * ONE ->
  cost2 c (Z.max 0 (x * ONE - 2 * T)) <= cost2_den c * h -> cost_num c (Z.max 0 x) <= cost_den c * h.
Proof.
  intros Hp HT H4 Hh Hs H. pose proof ONE_pos as HO.
  assert (Hd : 0 < cost_den c) by (unfold cost_den; destruct Hp as (_ & ? & ? & ?); apply Z.mul_pos_pos; lia).
  destruct (Z.le_gt_cases x 0) as [L | L].
  { rewrite Z.max_l by lia. unfold cost_num. rewrite !Z.mul_0_r. apply Z.mul_nonneg_nonneg; lia. }
  assert (ONE <= x * ONE) by nia. rewrite (Z.max_r 0 x), (Z.max_r 0 (x * ONE - 2 * T)) in * by lia.
  pose proof (cost2_slope c (x * ONE - 2 * T) (x * ONE) Hp ltac:(lia)) as [_ X].
  replace (x * ONE - (x * ONE - 2 * T)) with (2 * T) in X by ring.
  rewrite cost2_whole in X. unfold cost2_den in H.
  set (u := cost_num c x) in *. set (v := cost2 c (x * ONE - 2 * T)) in *. set (p := price_num_at c (x * ONE)) in *.
  set (d := cost_den c) in *. clearbody u v p d.
  assert (ONE * ONE * u < ONE * ONE * (d * h + 1)) by lia.
  apply Z.mul_lt_mono_pos_l in H1; [lia |]. apply Z.mul_pos_pos; exact HO.
Qed.

Lemma lrun_u64 c f st ops : linear_wf c -> feeless f -> pool_u64 st -> pool_u64 (lrun c f st ops).
Proof.
  intros Hc Hf. revert st. induction ops as [| o ops IH]; intros st Hu; [exact Hu |].
  change (lrun c f st (o :: ops)) with (lrun c f (lstep c f st o) ops). apply IH. apply lstep_u64; assumption.
Qed.

Lemma rounded_history c f T D ops :
  linear_wf c -> linear_validate c = Ok tt -> fine c T -> 4 * T <= ONE -> feeless f -> is_u64 D ->
  (forall pre s post, ops = pre ++ Buy s :: post ->
     left (lrun c f (mk_lpool 0 D 0) (pre ++ [Buy s])) = 0 ->
     left (lrun c f (mk_lpool 0 D 0) pre) <= 0) ->
  let st := lrun c f (mk_lpool 0 D 0) ops in
  cost2 c (Z.max 0 (sold st * ONE - 2 * T)) <= cost2_den c * held st /\
  (4 * T * price_num_at c (sold st * ONE) < ONE * ONE -> cost_num c (Z.max 0 (sold st)) <= cost_den c * held st).
Proof.
  intros Hc Hv HF H4 Hf HD Hno. cbv zeta. pose proof (validated_pos c Hc Hv) as Hp.
  assert (U : pool_u64 (mk_lpool 0 D 0)) by (split; [split; vm_compute; discriminate | exact HD]).
  pose proof (lrun_u64 c f _ ops Hc Hf U) as (U' & _). unfold is_u64 in U'.
  match goal with |- ?P /\ _ => assert (X : P) end.
  2:{ split; [exact X |]. intros HP. apply (whole_exact c T); try assumption; [apply HF | lia]. }
  apply covered_exact.
  apply covered_run; try assumption.
  - unfold total, is_u64 in *. cbn. lia.
  - apply start_covered; try assumption; try lia; [split; vm_compute; discriminate |].
    unfold cost_num. rewrite !Z.mul_0_r. lia.
  - intros pre o post E (s & -> & Hl & H0).
    specialize (Hno pre s post E). rewrite lrun_app in Hno. cbn [lrun fold_left] in Hno.
    change (fold_left (lstep c f) pre (mk_lpool 0 D 0)) with (lrun c f (mk_lpool 0 D 0) pre) in Hno.
    specialize (Hno H0). lia.
Qed.

Lemma rounded_always c f T D ops :
  linear_wf c -> linear_validate c = Ok tt -> fine c T -> costly c T -> feeless f -> is_u64 D ->
  (forall x, ~ In (TopUp x) ops) ->
  let st := lrun c f (mk_lpool 0 D 0) ops in
  cost2 c (Z.max 0 (sold st * ONE - 2 * T)) <= cost2_den c * (held st + 1) /\
  (left st <> 0 -> cost2 c (Z.max 0 (sold st * ONE - 2 * T)) <= cost2_den c * held st).
Proof.
  intros Hc Hv HF Hcy Hf HD Hno. cbv zeta. pose proof (validated_pos c Hc Hv) as Hp. pose proof (proj1 HF) as HT0.
  apply covered_short; [exact Hp |].
  assert (U : pool_u64 (mk_lpool 0 D 0)) by (split; [split; vm_compute; discriminate | exact HD]).
  apply covered_run_always; try assumption.
  - unfold total, is_u64 in *. cbn. lia.
  - apply Forall_forall. intros o Ho. destruct o; try exact I. exact (Hno x Ho).
  - destruct (costly_small c T Hp Hcy) as (HT1 & _). pose proof HALF_ONE as HH. apply start_covered; try assumption; try lia.
    + unfold short. apply Z.mul_nonneg_nonneg; [pose proof (cden_pos c Hp); lia | vm_compute; discriminate].
    + split; vm_compute; discriminate.
    + unfold cost_num. rewrite !Z.mul_0_r. lia.
Qed.
