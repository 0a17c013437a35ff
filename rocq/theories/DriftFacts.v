(** Backing of every validated linear pool: each sale may cost a fixed number of tokens (C105). *)
From Verif Require Import Ints Tactics DfsPrecise Fees LinearCurve SwapCurve Spec DfsFacts LinearFacts
  SwapFacts LinearExact LinearProps LinearRound LinearHistory LinearBacked LedgerSpec TraceSpec RoundSpec BackFacts OfferFacts DriftSpec.

Definition drift (c : linear_curve) (tol M : Z) (st : lpool) : Prop :=
  near c tol M st /\ cost2 c (Z.max 0 (M - left st * ONE - tol - ONE)) <= cost2_den c * held st.

Lemma sway_cost c d : sway c d -> HALF <= d /\ 2 * cost2_den c <= cost2 c d.
Proof.
  intros [H1 H2]. change (10 ^ 36) with (ONE * ONE) in H2. change (10 ^ 18) with ONE in H1, H2. pose proof HALF_ONE.
  unfold cost2, cost2_den, cost_den. lia.
Qed.

(** A position that costs less than one unit above the reserve. *)
Lemma up_sway c d a h b x : linear_wf c -> linear_validate c = Ok tt -> sway c d -> 0 <= h <= a -> a < 2 ^ 65 ->
  b_up c a = Val b -> cost2 c x < cost2_den c * (h + 1) -> x <= b + d.
Proof.
  intros Hc Hv HS Ha Ha' Hb Hx. pose proof (RedeemFacts.validated_pos c Hc Hv) as Hp. destruct (sway_cost c d HS) as [Hd H2].
  pose proof (up_unit c a b Hc Hv ltac:(lia) Hb) as U. pose proof (b_up_bounds c a b Hp ltac:(lia) Hb) as Bb.
  destruct (Z.le_gt_cases x (b + d)) as [L | G]; [exact L | exfalso].
  assert (Hd0 : 0 <= d) by (unfold HALF in Hd; lia).
  pose proof (cost2_super c (b + 1) d Hp ltac:(lia) Hd0) as S.
  pose proof (cost2_mono c (b + 1 + d) x Hp ltac:(lia)) as Mo.
  pose proof (cost2_den_pos c Hp) as HR.
  assert (cost2_den c * (h + 1) <= cost2_den c * (a + 1)) by (apply Z.mul_le_mono_nonneg_l; lia). lia.
Qed.

Lemma back_sway c d h x : linear_pos c -> sway c d -> 0 <= h -> cost2 c x < cost2_den c * (h + 1) ->
  cost2 c (Z.max 0 (x - d)) <= cost2_den c * h.
Proof.
  intros Hp HS Hh Hx. destruct (sway_cost c d HS) as [Hd H2]. pose proof (cost2_den_pos c Hp) as HR.
  destruct (Z.le_gt_cases x d) as [L | G].
  { rewrite Z.max_l, cost2_0 by lia. apply Z.mul_nonneg_nonneg; lia. }
  rewrite Z.max_r by lia. assert (Hd0 : 0 <= d) by (unfold HALF in Hd; lia).
  pose proof (cost2_super c (x - d) d Hp ltac:(lia) Hd0) as S. replace (x - d + d) with x in S by ring. lia.
Qed.

Lemma near_cost c x h y : linear_pos c -> 0 <= x -> area c x <= h * ONE + y -> 0 <= y <= HALF ->
  cost2 c x < cost2_den c * (h + 1).
Proof.
  intros Hp Hx Ha Hy. pose proof (area_near c x _ Hp Hx Ha) as H. pose proof (cden_pos c Hp) as HG.
  rewrite cost2_den_eq.
  assert (cost_den c * ONE * (h * ONE + y + 2) < cost_den c * ONE * (ONE * (h + 1))).
  { apply Z.mul_lt_mono_pos_l; [exact HG |]. pose proof HALF_ONE. assert (2 < HALF) by (vm_compute; reflexivity). lia. }
  lia.
Qed.

Definition loss (c : linear_curve) (f : fees) (st : lpool) (o : lop) : Z :=
  match o with Sell _ => 1 | Buy _ => if left (lstep c f st o) =? 0 then 1 else 0 | _ => 0 end.

Lemma loss_01 c f st o : 0 <= loss c f st o <= 1.
Proof. destruct o; cbn [loss]; try destruct (_ =? _); lia. Qed.

Lemma drift_more c t t' M st : linear_pos c -> t <= t' -> drift c t M st -> drift c t' M st.
Proof.
  intros Hp Ht [H1 H2]. split.
  - intros a b Ha Hb. specialize (H1 a b Ha Hb). lia.
  - eapply Z.le_trans; [| exact H2]. apply cost2_mono; [exact Hp |]. lia.
Qed.

Lemma lstep_drift c f d tol D st o :
  linear_wf c -> linear_validate c = Ok tt -> feeless f -> sway c d -> 0 <= tol ->
  pool_u64 st -> drift c tol (D * ONE) st ->
  drift c (tol + d * loss c f st o) (D * ONE) (lstep c f st o).
Proof.
  intros Hc Hv Hf HS Ht Hu HB. pose proof (RedeemFacts.validated_pos c Hc Hv) as Hp. pose proof Hu as (U1 & U2).
  pose proof ONE_pos as HO. pose proof HALF_ONE as HH. destruct (sway_cost c d HS) as [Hd HD2].
  assert (Hd0 : 0 <= d) by (unfold HALF in Hd; lia).
  pose proof (cost2_den_pos c Hp) as HR.
  assert (Hkeep : drift c (tol + d * loss c f st o) (D * ONE) st).
  { apply (drift_more c tol); [exact Hp | | exact HB]. pose proof (loss_01 c f st o). nia. }
  destruct o as [s | n | x | x | x].
  - unfold loss in *.
    cbn [lstep] in *. destruct (curve_swap _ _ _ _ _ _) as [r | |] eqn:E; try exact Hkeep.
    destruct (0 <=? s) eqn:E1; cbn [andb] in *; [| exact Hkeep].
    destruct (s <=? u64_max) eqn:E2; cbn [andb] in *; [| exact Hkeep].
    destruct (new_swap_source_amount r <=? u64_max) eqn:E3; [| exact Hkeep].
    apply Z.leb_le in E1, E2, E3. cbn [held left] in *. clear Hkeep.
    assert (Hs : is_u64 s) by (unfold is_u64; lia).
    apply feeless_swap in E; try assumption. destruct E as (E & _ & _ & HDr & N & Nd & _).
    cbn [swap_without_fees] in E.
    pose proof (linear_swap_bounds _ _ _ _ _ _ _ Hc Hs U1 U2 E) as (B1 & B2 & _).
    pose proof E as E'. apply linear_swap_a_to_b in E'; try assumption.
    destruct E' as (_ & Psrc & Pdst & b0 & Hb0 & Hcase).
    unfold is_u64, u64_max in *.
    destruct HB as [HB HK].
    assert (Hz : D * ONE - left st * ONE <= b0 + tol) by (apply (HB (held st)); [unfold u64_max; lia | exact Hb0]).
    pose proof (b_up_bounds c (held st) _ Hp ltac:(lia) Hb0) as Bb.
    destruct Hcase as [(Hdst & Hsrc & Hsold) | (Hsrc & _ & b1 & D1 & Hle & Hdst & _)].
    + destruct Hsold as (S1 & S2 & S3 & _).
      rewrite Nd, N, Hdst, Z.sub_diag, Z.eqb_refl, Z.mul_1_r.
      assert (Hx : cost2 c (b0 + left st * ONE) < cost2_den c * (held st + source_amount_swapped r + 1)).
      { apply (near_cost c _ _ HALF Hp); [nia | lia | lia]. }
      unfold drift, near. cbn [held left]. rewrite Z.mul_0_l, Z.sub_0_r. split.
      * intros a b Ha Hb. unfold u64_max in *.
        pose proof (up_sway c d a _ b _ Hc Hv HS ltac:(split; [| apply Ha]; lia) ltac:(lia) Hb Hx). lia.
      * pose proof (back_sway c d (held st + source_amount_swapped r) _ Hp HS ltac:(lia) Hx) as X.
        eapply Z.le_trans; [| exact X]. apply cost2_mono; [exact Hp |]. lia.
    + rewrite Hsrc in N. assert (L1 : destination_amount_swapped r * ONE <= b1 - b0).
      { rewrite Hdst. pose proof (div_bounds (b1 - b0) ONE HO). lia. }
      assert (Hpos : D * ONE - new_swap_destination_amount r * ONE <= b1 + tol) by (rewrite Nd; lia).
      rewrite N in E3 |- *. apply (drift_more c tol); [exact Hp | destruct (_ =? 0); lia |].
      split.
      * intros a b Ha Hb. cbn [held left] in *.
        pose proof (b_down_le_up c (held st + s) a b1 b Hp ltac:(lia) ltac:(lia) ltac:(unfold u64_max in *; lia) D1 Hb) as X. lia.
      * cbn [held left].
        pose proof (down_token c (held st + s) b1 Hc Hv ltac:(lia) D1) as X.
        eapply Z.le_trans; [| exact X]. apply cost2_mono; [exact Hp |]. lia.
  - unfold loss in *. rewrite Z.mul_1_r in *. cbn [lstep]. destruct (curve_swap _ _ _ _ _ _) as [r | |] eqn:E; try exact Hkeep.
    destruct (0 <=? n) eqn:E1; cbn [andb]; [| exact Hkeep].
    destruct (n <=? u64_max) eqn:E2; cbn [andb]; [| exact Hkeep].
    destruct (new_swap_source_amount r <=? u64_max) eqn:E3; [| exact Hkeep].
    apply Z.leb_le in E1, E2, E3. cbn [held left] in *. clear Hkeep.
    assert (Hs : is_u64 n) by (unfold is_u64; lia).
    apply feeless_swap in E; try assumption. destruct E as (E & _ & _ & HDr & N & Nd & _).
    cbn [swap_without_fees] in E.
    pose proof (linear_swap_bounds _ _ _ _ _ _ _ Hc Hs U2 U1 E) as (B1 & B2 & _).
    apply linear_swap_b_to_a in E; try assumption.
    destruct E as (_ & Psrc & Pdst & b0 & Hb0 & Hcase).
    unfold is_u64, u64_max in *.
    destruct HB as [HB _].
    assert (Hz : D * ONE - left st * ONE <= b0 + tol) by (apply (HB (held st)); [unfold u64_max; lia | exact Hb0]).
    clear HB. rewrite N, Nd.
    destruct Hcase as [(Hlt & Hsrc & Hdst) | (Hge & Hsrc & Har & He & _ & Hdst)].
    + assert (Hleft : D * ONE - (left st + source_amount_swapped r) * ONE <= tol + d) by lia.
      unfold drift, near. cbn [held left]. split.
      * intros a b Ha Hb. unfold u64_max in *. pose proof (b_up_bounds c a b Hp ltac:(lia) Hb). lia.
      * rewrite Z.max_l, cost2_0 by lia. apply Z.mul_nonneg_nonneg; lia.
    + unfold end_position in *.
      assert (Hcd : b0 - n * ONE <= cdivup (b0 - n * ONE) ONE * ONE) by (apply cdivup_spec; lia).
      set (e := cdivup (b0 - n * ONE) ONE) in *. clearbody e.
      assert (He0 : 0 <= e) by nia. assert (HeO : 0 <= e * ONE) by nia.
      assert (Harea : area c (e * ONE) <= (held st - destination_amount_swapped r) * ONE).
      { rewrite Hdst. pose proof (div_bounds (held st * ONE - area c (e * ONE)) ONE HO). lia. }
      assert (Hx : cost2 c (e * ONE) < cost2_den c * (held st - destination_amount_swapped r + 1)).
      { apply (near_cost c _ _ 0 Hp HeO); [lia | unfold HALF; lia]. }
      unfold drift, near. cbn [held left]. rewrite Hsrc. split.
      * intros a b Ha Hb. unfold u64_max in *.
        pose proof (up_sway c d a _ b _ Hc Hv HS ltac:(split; [| apply Ha]; lia) ltac:(lia) Hb Hx). lia.
      * pose proof (back_sway c d (held st - destination_amount_swapped r) _ Hp HS ltac:(lia) Hx) as X.
        eapply Z.le_trans; [| exact X]. apply cost2_mono; [exact Hp |]. lia.
  - clear Hkeep. unfold loss. rewrite Z.mul_0_r, Z.add_0_r. unfold lstep in *. destruct (0 <=? x) eqn:E1; cbn [andb]; [| exact HB].
    destruct (_ <=? u64_max) eqn:E2; [| exact HB]. apply Z.leb_le in E1, E2. destruct HB as [HB HK].
    split.
    + intros a b Ha Hb. cbn [held left] in *. apply (HB a b); [lia | exact Hb].
    + cbn [held left]. assert (0 <= cost2_den c * x) by (apply Z.mul_nonneg_nonneg; lia). lia.
  - clear Hkeep. unfold loss. rewrite Z.mul_0_r, Z.add_0_r. unfold lstep in *. destruct (0 <=? x) eqn:E1; cbn [andb]; [| exact HB].
    destruct (_ <=? u64_max) eqn:E2; [| exact HB]. apply Z.leb_le in E1, E2. destruct HB as [HB HK].
    assert (0 <= x * ONE) by nia. split.
    + intros a b Ha Hb. cbn [held left] in *. specialize (HB a b Ha Hb). lia.
    + cbn [held left]. eapply Z.le_trans; [| exact HK]. apply cost2_mono; [exact Hp |]. lia.
  - clear Hkeep. unfold loss. rewrite Z.mul_0_r, Z.add_0_r. unfold lstep in *. destruct (0 <=? x) eqn:E1; cbn [andb]; [| exact HB].
    destruct (_ <=? u64_max) eqn:E2; [| exact HB]. apply Z.leb_le in E1, E2. destruct HB as [HB HK].
    assert (0 <= x * ONE) by nia. split.
    + intros a b Ha Hb. cbn [held left] in *. specialize (HB a b Ha Hb). lia.
    + cbn [held left]. eapply Z.le_trans; [| exact HK]. apply cost2_mono; [exact Hp |]. lia.
Qed.

(** ** Whole histories *)
Lemma roundings_cons c f st o ops : roundings c f st (o :: ops) = loss c f st o + roundings c f (lstep c f st o) ops.
Proof. reflexivity. Qed.

Lemma roundings_nonneg c f st ops : 0 <= roundings c f st ops.
Proof.
  revert st. induction ops as [| o ops IH]; intros st; [cbn; lia |]. rewrite roundings_cons.
  pose proof (loss_01 c f st o). specialize (IH (lstep c f st o)). lia.
Qed.

Lemma drift_shift c t M A B x y : drift c t M (mk_lpool A B x) -> drift c t (M + y * ONE) (mk_lpool A (B + y) x).
Proof.
  unfold drift, near. cbn [held left]. intros [H1 H2]. split.
  - intros a b Ha Hb. specialize (H1 a b Ha Hb). lia.
  - replace (M + y * ONE - (B + y) * ONE - t - ONE) with (M - B * ONE - t - ONE) by ring. exact H2.
Qed.

Lemma drift_run c f d tol st ops :
  linear_wf c -> linear_validate c = Ok tt -> feeless f -> sway c d -> 0 <= tol ->
  pool_u64 st -> drift c tol (total st * ONE) st ->
  let st' := lrun c f st ops in drift c (tol + d * roundings c f st ops) (total st' * ONE) st'.
Proof.
  intros Hc Hv Hf HS Ht Hu Hb. cbv zeta. revert tol Ht st Hu Hb.
  induction ops as [| o ops IH]; intros tol Ht st Hu Hb.
  { cbn [roundings lrun fold_left]. rewrite Z.mul_0_r, Z.add_0_r. exact Hb. }
  change (lrun c f st (o :: ops)) with (lrun c f (lstep c f st o) ops). rewrite roundings_cons.
  pose proof (lstep_total c f st o Hf) as T1.
  pose proof (lstep_u64 c f st o Hc Hf Hu) as U.
  pose proof (lstep_drift c f d tol (total st) st o Hc Hv Hf HS Ht Hu Hb) as B.
  pose proof (loss_01 c f st o) as L. destruct (sway_cost c d HS) as [Hd _].
  assert (Hd0 : 0 <= d * loss c f st o) by (apply Z.mul_nonneg_nonneg; unfold HALF in Hd; lia).
  replace (tol + d * (loss c f st o + roundings c f (lstep c f st o) ops))
    with (tol + d * loss c f st o + d * roundings c f (lstep c f st o) ops) by ring.
  apply IH; [lia | exact U |]. rewrite T1. destruct o; try (rewrite Z.add_0_r; exact B).
  cbn [loss] in *. rewrite Z.mul_0_r, Z.add_0_r in *. cbn [lstep] in *. destruct (_ && _); cbn [left held] in *.
  - replace ((total st + (left st + x - left st)) * ONE) with (total st * ONE + x * ONE) by ring.
    apply drift_shift. destruct st. exact Hb.
  - replace (total st + (left st - left st)) with (total st) by ring. exact Hb.
Qed.

Lemma drift_covers c t st : drift c t (total st * ONE) st ->
  cost2 c (Z.max 0 (sold st * ONE - t - ONE)) <= cost2_den c * held st.
Proof.
  intros [_ H]. unfold total in H.
  replace ((sold st + left st) * ONE - left st * ONE - t - ONE) with (sold st * ONE - t - ONE) in H by ring. exact H.
Qed.

Lemma drift_start c D : linear_pos c -> is_u64 D -> drift c 0 (D * ONE) (mk_lpool 0 D 0).
Proof.
  intros Hp HD. unfold drift, near. cbn [held left]. rewrite !Z.sub_diag. split.
  - intros a b Ha Hb. unfold u64_max in *. pose proof (b_up_bounds c a b Hp ltac:(lia) Hb). lia.
  - pose proof ONE_pos. rewrite Z.max_l, cost2_0 by lia. lia.
Qed.

Lemma drift_history c f d D ops :
  linear_wf c -> linear_validate c = Ok tt -> feeless f -> sway c d -> is_u64 D ->
  let st := lrun c f (mk_lpool 0 D 0) ops in
  cost2 c (Z.max 0 (sold st * ONE - d * roundings c f (mk_lpool 0 D 0) ops - ONE)) <= cost2_den c * held st.
Proof.
  intros Hc Hv Hf HS HD. cbv zeta. apply drift_covers.
  replace (d * roundings c f (mk_lpool 0 D 0) ops) with (0 + d * roundings c f (mk_lpool 0 D 0) ops) by ring.
  apply drift_run; try assumption; [lia | split; [split; vm_compute; discriminate | exact HD] |].
  apply drift_start; [apply RedeemFacts.validated_pos; assumption | exact HD].
Qed.

(** Two billion tokens always cost two units. *)
Lemma sway_any c : linear_wf c -> linear_validate c = Ok tt -> sway c (2 * 10 ^ 27).
Proof.
  intros Hc Hv. pose proof (slope_least c Hc Hv) as HT. pose proof (RedeemFacts.validated_pos c Hc Hv) as (Hwf & P1 & P2 & P3).
  destruct Hwf as (_ & _ & Hp & _). unfold is_u64 in Hp. split; [vm_compute; discriminate |].
  assert (H1 : slope_den c * price_den c <= slope_num c * ONE * price_den c) by (apply Z.mul_le_mono_nonneg_r; lia).
  assert (H2 : 0 <= slope_den c * price_num c) by (apply Z.mul_nonneg_nonneg; lia).
  change (10 ^ 36) with (ONE * ONE). change (2 * 10 ^ 27) with (2 * 10 ^ 9 * ONE). change ONE with (10 ^ 18) in *. lia.
Qed.

Lemma drift_any c f D ops :
  linear_wf c -> linear_validate c = Ok tt -> feeless f -> is_u64 D ->
  let st := lrun c f (mk_lpool 0 D 0) ops in
  let lost := 2 * 10 ^ 9 * roundings c f (mk_lpool 0 D 0) ops + 1 in
  cost_num c (Z.max 0 (sold st - lost)) <= cost_den c * held st.
Proof.
  intros Hc Hv Hf HD. cbv zeta. pose proof (drift_history c f _ D ops Hc Hv Hf (sway_any c Hc Hv) HD) as H. cbv zeta in H.
  pose proof (RedeemFacts.validated_pos c Hc Hv) as Hp.
  set (st := lrun c f (mk_lpool 0 D 0) ops) in *. set (n := roundings c f (mk_lpool 0 D 0) ops) in *.
  replace (Z.max 0 (sold st * ONE - 2 * 10 ^ 27 * n - ONE)) with (Z.max 0 (sold st - (2 * 10 ^ 9 * n + 1)) * ONE) in H.
  2:{ change (2 * 10 ^ 27) with (2 * 10 ^ 9 * ONE). pose proof ONE_pos.
      replace (sold st * ONE - 2 * 10 ^ 9 * ONE * n - ONE) with ((sold st - (2 * 10 ^ 9 * n + 1)) * ONE) by ring.
      set (z := sold st - (2 * 10 ^ 9 * n + 1)). clearbody z. nia. }
  rewrite cost2_whole in H. unfold cost2_den in H.
  replace (cost_den c * ONE * ONE * held st) with (ONE * ONE * (cost_den c * held st)) in H by ring.
  apply Z.mul_le_mono_pos_l in H; [exact H | reflexivity].
Qed.
