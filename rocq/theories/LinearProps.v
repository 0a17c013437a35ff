(** Properties of the linear-price curve. *)
From Verif Require Import Ints Tactics DfsPrecise Fees LinearCurve SwapCurve Spec DfsFacts CurveFacts
  LinearFacts LinearExact SwapFacts FixedFacts.

(** ** Parameter validation (C03) *)
Lemma param_valid_closed c : linear_wf c ->
  is_curve_param_valid c =
    if (slope_num c =? 0) || (slope_den c =? 0) || (price_den c =? 0) then Non
    else if slope_den c <=? slope_num c * ONE then Val tt else Non.
Proof.
  intros (H1 & H2 & H3 & H4). unfold is_u64, u64_max in *. unfold is_curve_param_valid.
  destruct (Z.eqb_spec (slope_num c) 0); [reflexivity |].
  destruct (Z.eqb_spec (slope_den c) 0); [reflexivity |].
  destruct (Z.eqb_spec (price_den c) 0); [reflexivity |]. cbn [orb].
  rewrite !dfs_new_val by (unfold ONE, u256_max; lia). cbn [obind].
  rewrite !dfs_div_whole by (unfold ONE, HALF, u256_max; lia). cbn [obind].
  replace (1 * ONE / 1000000000000000000) with 1 by reflexivity.
  unfold dfs_greater_than_or_equal.
  pose proof (div_bounds (slope_num c * ONE) (slope_den c) ltac:(lia)) as D.
  destruct (Z.leb_spec (slope_den c) (slope_num c * ONE)).
  - destruct (Z.leb_spec 1 (slope_num c * ONE / slope_den c)); [reflexivity | nia].
  - destruct (Z.leb_spec 1 (slope_num c * ONE / slope_den c)); [nia | reflexivity].
Qed.

Lemma linear_validate_iff c : linear_wf c ->
  (linear_validate c = Ok tt <->
     slope_num c <> 0 /\ slope_den c <> 0 /\ price_den c <> 0 /\
     slope_den c <= slope_num c * 10 ^ 18) /\
  (linear_validate c <> Ok tt -> linear_validate c = Err (ESwap InvalidCurve)).
Proof.
  intros Hc. unfold linear_validate. rewrite (param_valid_closed c Hc).
  replace ONE with (10 ^ 18) by reflexivity.
  destruct (Z.eqb_spec (slope_num c) 0); cbn [orb].
  { split; [split; [discriminate | intuition] | reflexivity]. }
  destruct (Z.eqb_spec (slope_den c) 0); cbn [orb].
  { split; [split; [discriminate | intuition] | reflexivity]. }
  destruct (Z.eqb_spec (price_den c) 0); cbn [orb].
  { split; [split; [discriminate | intuition] | reflexivity]. }
  destruct (Z.leb_spec (slope_den c) (slope_num c * 10 ^ 18)).
  - split; [split; auto | congruence].
  - split; [split; [discriminate | lia] | reflexivity].
Qed.

(** Shape of a successful curve-level swap without fees. *)
Definition no_fees : fees := mk_fees 0 0 0 0 0 0 0 0.
Definition feeless (f : fees) : Prop := trade_fee_num f = 0 /\ owner_trade_fee_num f = 0.

Lemma feeless_swap c source ss sd d f r : feeless f ->
  is_u64 source ->
  curve_swap c source ss sd d f = Val r <->
  swap_without_fees c source ss sd d = Val (source_amount_swapped r, destination_amount_swapped r) /\
  source_amount_swapped r <= u128_max /\ ss + source_amount_swapped r <= u128_max /\
  destination_amount_swapped r <= sd /\
  new_swap_source_amount r = ss + source_amount_swapped r /\
  new_swap_destination_amount r = sd - destination_amount_swapped r /\
  trade_fee r = 0 /\ owner_fee r = 0.
Proof.
  intros [F1 F2] Hs. unfold is_u64, u64_max in Hs.
  unfold curve_swap, trading_fee, owner_trading_fee, calculate_fee.
  rewrite F1, F2. cbn [Z.eqb orb obind].
  rewrite add_in_eq by (unfold u128_max; lia). cbn [obind].
  rewrite csub_eq by lia. cbn [obind]. rewrite Z.sub_0_r. split; intros H.
  - inv. rewrite Z.add_0_r in *. cbn. auto 10.
  - destruct H as (H & B1 & B2 & B3 & E1 & E2 & E3 & E4). rewrite H. cbn [obind].
    rewrite Z.add_0_r. rewrite !add_in_eq by lia. cbn [obind].
    rewrite add_in_eq by lia. cbn [obind]. rewrite csub_eq by lia. cbn [obind].
    destruct r; cbn in *; subst. rewrite !Z.add_0_r. reflexivity.
Qed.

Lemma linear_swap_a_to_b c s a dest src dst :
  linear_wf c -> is_u64 a -> is_u64 s -> is_u64 dest ->
  linear_swap c s a dest AtoB = Val (src, dst) ->
  linear_pos c /\ 0 < src /\ 0 < dst /\
  exists b0, b_up c a = Val b0 /\
    ((dst = dest /\ 0 <= src <= s /\ sold_out_cost c a b0 dest src) \/
     (src = s /\ (forall cost, 0 <= cost <= s -> ~ sold_out_cost c a b0 dest cost) /\
      exists b1, b_down c (a + s) = Val b1 /\ b0 <= b1 /\ dst = (b1 - b0) / ONE /\ dst <= u128_max)).
Proof.
  intros Hc Ha Hs Hd H. pose proof (linear_swap_bounds _ _ _ _ _ _ _ Hc Hs Ha Hd H) as (B1 & B2 & _).
  unfold linear_swap in H. inv.
  match goal with H : swap_a_to_b _ _ _ _ = _ |- _ => rename H into Hsw end.
  assert (Hp := swap_a_to_b_pos _ _ _ _ _ Hc Hsw). apply swap_a_to_b_val in Hsw; try assumption.
  split; [exact Hp |]. split; [lia |]. split; [lia |]. exact Hsw.
Qed.

Lemma linear_swap_b_to_a c n ss a src dst :
  linear_wf c -> is_u64 a -> is_u64 n -> is_u64 ss ->
  linear_swap c n ss a BtoA = Val (src, dst) ->
  linear_pos c /\ 0 < src /\ 0 < dst /\
  exists b0, b_up c a = Val b0 /\
    ((b0 < n * ONE /\ 2 * src * ONE - ONE <= 2 * b0 < 2 * src * ONE + ONE /\ dst = a) \/
     (n * ONE <= b0 /\ src = n /\
      area c (end_position b0 n * ONE) <= a * ONE /\
      0 <= end_position b0 n * ONE < 2 ^ 126 /\
      slope_num c * (end_position b0 n * ONE) * (end_position b0 n * ONE) < 2 ^ 252 /\
      dst = (a * ONE - area c (end_position b0 n * ONE)) / ONE)).
Proof.
  intros Hc Ha Hs Hd H. pose proof (linear_swap_bounds _ _ _ _ _ _ _ Hc Hs Hd Ha H) as (B1 & B2 & _).
  unfold linear_swap in H. inv.
  match goal with H : swap_b_to_a _ _ _ _ = _ |- _ => rename H into Hsw end.
  assert (Hp := swap_b_to_a_pos _ _ _ _ _ Hc Hsw). apply swap_b_to_a_val in Hsw; try assumption.
  split; [exact Hp |]. split; [lia |]. split; [lia |]. exact Hsw.
Qed.

Lemma b_up_bounds c a b : linear_pos c -> 0 <= a < 2 ^ 65 -> b_up c a = Val b -> 0 <= b < 2 ^ 190.
Proof. intros Hc Ha H. apply b_value_val in H; try assumption. destruct H as (r & _ & _ & _ & ?). assumption. Qed.

(** ** Monotonicity (C05) *)
Lemma buy_mono c f a dest s s' r r' :
  linear_wf c -> feeless f -> is_u64 a -> is_u64 dest -> is_u64 s -> is_u64 s' -> s <= s' ->
  curve_swap (LinearPrice c) s a dest AtoB f = Val r ->
  curve_swap (LinearPrice c) s' a dest AtoB f = Val r' ->
  destination_amount_swapped r <= destination_amount_swapped r' /\
  source_amount_swapped r <= source_amount_swapped r'.
Proof.
  intros Hc Hf Ha Hd Hs Hs' Hle H H'.
  apply feeless_swap in H; try assumption. apply feeless_swap in H'; try assumption.
  destruct H as (H & _ & _ & HD & _). destruct H' as (H' & _ & _ & HD' & _).
  cbn [swap_without_fees] in *.
  apply linear_swap_a_to_b in H; try assumption. apply linear_swap_a_to_b in H'; try assumption.
  destruct H as (Hp & _ & _ & b0 & Hb0 & H). destruct H' as (_ & _ & _ & b0' & Hb0' & H').
  rewrite Hb0 in Hb0'. injection Hb0' as <-.
  unfold is_u64 in *.
  destruct H as [(E & Hc1 & Hso) | (E & Hno & b1 & Hb1 & Hlt & E2 & _)];
  destruct H' as [(E' & Hc1' & Hso') | (E' & Hno' & b1' & Hb1' & Hlt' & E2' & _)].
  - assert (source_amount_swapped r = source_amount_swapped r').
    { destruct Hso as (_ & Hso & _). destruct Hso' as (_ & Hso' & _). unfold ONE in *. lia. }
    lia.
  - exfalso. apply (Hno' (source_amount_swapped r)); [lia | assumption].
  - split; [lia |]. destruct (Z.le_gt_cases (source_amount_swapped r) (source_amount_swapped r')); [assumption |].
    exfalso. apply (Hno (source_amount_swapped r')); [lia | assumption].
  - split; [| lia]. rewrite E2, E2'. apply Z.div_le_mono; [exact ONE_pos |].
    assert (b1 <= b1'); [| lia].
    apply (b_value_mono c (a + s) (a + s') false); try assumption; unfold u64_max in *; lia.
Qed.

Lemma end_position_mono b0 n n' : n <= n' -> end_position b0 n' <= end_position b0 n.
Proof. intros H. apply cdivup_mono; [exact ONE_pos | pose proof ONE_pos; nia]. Qed.

Lemma end_position_nonneg b0 n : n * ONE <= b0 -> 0 <= end_position b0 n.
Proof.
  intros H. unfold end_position. pose proof (cdivup_spec (b0 - n * ONE) ONE ONE_pos). pose proof ONE_pos. nia.
Qed.

Lemma sell_mono c f a ss n n' r r' :
  linear_wf c -> feeless f -> is_u64 a -> is_u64 ss -> is_u64 n -> is_u64 n' -> n <= n' ->
  curve_swap (LinearPrice c) n ss a BtoA f = Val r ->
  curve_swap (LinearPrice c) n' ss a BtoA f = Val r' ->
  destination_amount_swapped r <= destination_amount_swapped r'.
Proof.
  intros Hc Hf Ha Hss Hs Hs' Hle H H'.
  apply feeless_swap in H; try assumption. apply feeless_swap in H'; try assumption.
  destruct H as (H & _ & _ & HD & _). destruct H' as (H' & _ & _ & HD' & _).
  cbn [swap_without_fees] in *.
  apply linear_swap_b_to_a in H; try assumption. apply linear_swap_b_to_a in H'; try assumption.
  destruct H as (Hp & _ & _ & b0 & Hb0 & H). destruct H' as (_ & _ & _ & b0' & Hb0' & H').
  rewrite Hb0 in Hb0'. injection Hb0' as <-.
  destruct H' as [(_ & _ & E') | (Hn' & E' & HA' & HB' & HC' & E2')]; [lia |].
  destruct H as [(Hn & _ & E) | (Hn & E & HA & HB & HC & E2)].
  - exfalso. unfold ONE in *. lia.
  - rewrite E2, E2'. apply Z.div_le_mono; [exact ONE_pos |].
    assert (area c (end_position b0 n' * ONE) <= area c (end_position b0 n * ONE)); [| lia].
    apply area_mono; [assumption |].
    pose proof (end_position_mono b0 n n' Hle). pose proof ONE_pos.
    pose proof (end_position_nonneg b0 n' Hn'). nia.
Qed.

(** ** Splitting (C04) *)
Lemma split_purchase c f a dest s1 s2 r1 r2 r :
  linear_wf c -> feeless f -> is_u64 a -> is_u64 dest -> is_u64 s1 -> is_u64 s2 -> is_u64 (s1 + s2) ->
  is_u64 (a + s1) ->
  curve_swap (LinearPrice c) s1 a dest AtoB f = Val r1 ->
  curve_swap (LinearPrice c) s2 (new_swap_source_amount r1) (new_swap_destination_amount r1) AtoB f
    = Val r2 ->
  0 < new_swap_destination_amount r2 ->
  curve_swap (LinearPrice c) (s1 + s2) a dest AtoB f = Val r ->
  destination_amount_swapped r1 + destination_amount_swapped r2 <= destination_amount_swapped r.
Proof.
  intros Hc Hf Ha Hd Hs1 Hs2 Hs12 Has H1 H2 Hrem H.
  apply feeless_swap in H1; try assumption. apply feeless_swap in H2; try assumption.
  apply feeless_swap in H; try assumption.
  destruct H1 as (H1 & _ & _ & HD1 & N1 & M1 & _). destruct H2 as (H2 & _ & _ & HD2 & N2 & M2 & _).
  destruct H as (H & _ & _ & HD & _). cbn [swap_without_fees] in *.
  apply linear_swap_a_to_b in H1; try assumption.
  destruct H1 as (Hp & _ & Hpos1 & b0 & Hb0 & H1).
  destruct H1 as [(E & Hsrc & _) | (E & _ & b1 & Hb1 & Hlt & E2 & _)].
  { exfalso. unfold is_u64 in *.
    apply linear_swap_bounds in H2; unfold is_u64; try assumption; lia. }
  rewrite E in N1. rewrite N1 in H2.
  assert (is_u64 (new_swap_destination_amount r1)) by (unfold is_u64 in *; lia).
  apply linear_swap_a_to_b in H2; try assumption.
  destruct H2 as (_ & _ & Hpos2 & b1u & Hb1u & H2).
  destruct H2 as [(E' & _) | (E' & _ & b2 & Hb2 & Hlt' & E2' & _)]; [lia |].
  apply linear_swap_a_to_b in H; try assumption.
  destruct H as (_ & _ & _ & b0' & Hb0' & H). rewrite Hb0 in Hb0'. injection Hb0' as <-.
  destruct H as [(E3 & _) | (E3 & _ & b2' & Hb2' & Hlt3 & E4 & _)]; [lia |].
  replace (a + s1 + s2) with (a + (s1 + s2)) in Hb2 by ring.
  rewrite Hb2' in Hb2. injection Hb2 as <-.
  assert (b1 <= b1u).
  { apply (b_value_down_le_up c (a + s1)); try assumption. unfold is_u64, u64_max in *; lia. }
  rewrite E2, E2', E4.
  pose proof (div_bounds (b1 - b0) ONE ONE_pos). pose proof (div_bounds (b2' - b1u) ONE ONE_pos).
  apply Z.div_le_lower_bound; [exact ONE_pos |]. lia.
Qed.

(** ** Selling more than the curve has issued (C10) *)
Lemma oversell c f n ss a b0 r :
  linear_wf c -> feeless f -> is_u64 a -> is_u64 n -> is_u64 ss ->
  curve_swap (LinearPrice c) n ss a BtoA f = Val r ->
  b_value_with_amt_a_locked c (a * ONE) true = Val b0 -> b0 < n * ONE ->
  destination_amount_swapped r = a /\ new_swap_destination_amount r = 0 /\
  source_amount_swapped r <= n /\
  2 * source_amount_swapped r * ONE - ONE <= 2 * b0 < 2 * source_amount_swapped r * ONE + ONE.
Proof.
  intros Hc Hf Ha Hn Hss H Hb Hlt. pose proof (curve_swap_bounds (LinearPrice c)) as Hbd.
  apply feeless_swap in H; try assumption.
  destruct H as (H & _ & _ & HD & N1 & M1 & _). cbn [swap_without_fees] in *.
  pose proof (linear_swap_bounds _ _ _ _ _ _ _ Hc Hn Hss Ha H) as (B1 & B2 & B3).
  apply linear_swap_b_to_a in H; try assumption.
  destruct H as (_ & _ & _ & b & Hb' & H). unfold b_up in Hb'. rewrite Hb in Hb'. injection Hb' as <-.
  destruct H as [(_ & E & E2) | (Hge & _)]; [| lia].
  rewrite M1, E2. split; [reflexivity |]. split; [lia |]. split; [lia | exact E].
Qed.

(** ** What a sale leaves behind (C09) *)
Lemma cost2_whole c e : cost2 c (e * ONE) = ONE * ONE * cost_num c e.
Proof. unfold cost2, cost_num. ring. Qed.

Lemma sale_leaves c f n ss a b0 r :
  linear_wf c -> feeless f -> is_u64 a -> is_u64 n -> is_u64 ss ->
  curve_swap (LinearPrice c) n ss a BtoA f = Val r ->
  b_value_with_amt_a_locked c (a * ONE) true = Val b0 -> n * ONE <= b0 ->
  exists e, (e - 1) * ONE < b0 - n * ONE <= e * ONE /\
    source_amount_swapped r = n /\
    new_swap_destination_amount r + destination_amount_swapped r = a /\
    cost_num c e * ONE < cost_den c * (new_swap_destination_amount r * ONE + 2) /\
    (new_swap_destination_amount r - 1) * cost_den c < cost_num c e.
Proof.
  intros Hc Hf Ha Hn Hss H Hb Hle.
  apply feeless_swap in H; try assumption.
  destruct H as (H & _ & _ & HD & N1 & M1 & _). cbn [swap_without_fees] in *.
  apply linear_swap_b_to_a in H; try assumption.
  destruct H as (Hp & _ & _ & b & Hb' & H). unfold b_up in Hb'. rewrite Hb in Hb'. injection Hb' as <-.
  destruct H as [(Hlt & _) | (_ & E & HA & HB & HC & E2)]; [lia |].
  exists (end_position b0 n). split.
  { pose proof (cdivup_spec (b0 - n * ONE) ONE ONE_pos). unfold end_position. lia. }
  split; [exact E |]. split; [lia |].
  set (e := end_position b0 n) in *. clearbody e.
  pose proof (area_exact c (e * ONE) Hp ltac:(lia)) as [X1 X2]. rewrite cost2_whole in X1, X2.
  set (ar := area c (e * ONE)) in *. clearbody ar.
  pose proof (div_bounds (a * ONE - ar) ONE ONE_pos) as D. rewrite <- E2 in D.
  rewrite M1. set (a' := a - destination_amount_swapped r) in *.
  assert (D1 : ar <= a' * ONE < ar + ONE) by (subst a'; lia).
  destruct Hp as (_ & P1 & P2 & P3). unfold cost_den.
  set (sd := slope_den c) in *. set (pd := price_den c) in *. set (C := cost_num c e) in *.
  clearbody C a'. pose proof HALF_ONE as HH.
  assert (Hsp : 0 < sd * pd) by nia.
  split.
  - assert (2 * ONE * sd * pd * (ar + 2) <= 2 * ONE * sd * pd * (a' * ONE + 2)).
    { apply Z.mul_le_mono_nonneg_l; [unfold ONE; nia | lia]. }
    assert (ONE * (C * ONE) < ONE * (2 * sd * pd * (a' * ONE + 2))); [| pose proof ONE_pos; nia].
    nia.
  - assert (2 * ONE * sd * pd * ((a' - 1) * ONE + 1) <= 2 * ONE * sd * pd * ar).
    { apply Z.mul_le_mono_nonneg_l; [unfold ONE; nia | lia]. }
    assert (pd * HALF < 2 * ONE * sd * pd) by (unfold ONE, HALF; nia).
    assert (ONE * ONE * ((a' - 1) * (2 * sd * pd)) < ONE * ONE * C); [| unfold ONE in *; nia].
    nia.
Qed.

Lemma sale_leaves_exact c f n ss a b0 r :
  linear_wf c -> feeless f -> is_u64 a -> is_u64 n -> is_u64 ss -> 2 * cost_den c <= ONE ->
  curve_swap (LinearPrice c) n ss a BtoA f = Val r ->
  b_value_with_amt_a_locked c (a * ONE) true = Val b0 -> n * ONE <= b0 ->
  exists e, (e - 1) * ONE < b0 - n * ONE <= e * ONE /\
    (new_swap_destination_amount r - 1) * cost_den c < cost_num c e <=
    new_swap_destination_amount r * cost_den c.
Proof.
  intros Hc Hf Ha Hn Hss Hden H Hb Hle.
  destruct (sale_leaves c f n ss a b0 r) as (e & He & _ & _ & H1 & H2); try assumption.
  exists e. split; [exact He |]. split; [exact H2 |].
  pose proof ONE_pos. nia.
Qed.


Lemma sale_leaves_less : exists c n ss a b0 r e,
  linear_wf c /\ linear_validate c = Ok tt /\
  curve_swap (LinearPrice c) n ss a BtoA no_fees = Val r /\
  b_value_with_amt_a_locked c (a * ONE) true = Val b0 /\ n * ONE <= b0 /\
  (e - 1) * ONE < b0 - n * ONE <= e * ONE /\
  new_swap_destination_amount r * cost_den c < cost_num c e.
Proof.
  exists (mk_linear 1 1000000000000000000 1 1), 249999999, 10, 2, 250000000000000000000000000,
    (mk_swap_result 250000009 1 249999999 1 0 0), 1.
  vm_compute. repeat split; congruence.
Qed.

(** ** The same tokens at two prices (C11) *)
Lemma oversell_price_differs : exists c n n' ss a r r',
  linear_wf c /\ linear_validate c = Ok tt /\ is_u64 n /\ is_u64 n' /\ is_u64 ss /\ is_u64 a /\
  curve_swap (LinearPrice c) n ss a BtoA no_fees = Val r /\
  curve_swap (LinearPrice c) n' ss a BtoA no_fees = Val r' /\
  source_amount_swapped r = source_amount_swapped r' /\
  destination_amount_swapped r < destination_amount_swapped r'.
Proof.
  exists (mk_linear 1 10 1 1), 4, 5, 100, 5, (mk_swap_result 104 2 4 3 0 0), (mk_swap_result 104 0 4 5 0 0).
  vm_compute. repeat split; congruence.
Qed.

Lemma same_offer_kind_same_price c f ss ss' a n n' r r' b0 :
  linear_wf c -> feeless f -> is_u64 a -> is_u64 ss -> is_u64 ss' -> is_u64 n -> is_u64 n' ->
  curve_swap (LinearPrice c) n ss a BtoA f = Val r ->
  curve_swap (LinearPrice c) n' ss' a BtoA f = Val r' ->
  b_value_with_amt_a_locked c (a * ONE) true = Val b0 ->
  (n * ONE <= b0 <-> n' * ONE <= b0) ->
  source_amount_swapped r = source_amount_swapped r' ->
  destination_amount_swapped r = destination_amount_swapped r'.
Proof.
  intros Hc Hf Ha Hss Hss' Hs Hs' H H' Hb Hk Heq.
  apply feeless_swap in H; try assumption. apply feeless_swap in H'; try assumption.
  destruct H as (H & _ & _ & HD & _). destruct H' as (H' & _ & _ & HD' & _).
  cbn [swap_without_fees] in *.
  apply linear_swap_b_to_a in H; try assumption. apply linear_swap_b_to_a in H'; try assumption.
  destruct H as (Hp & _ & _ & b1 & Hb1 & H). destruct H' as (_ & _ & _ & b2 & Hb2 & H').
  unfold b_up in *. rewrite Hb in Hb1, Hb2. injection Hb1 as <-. injection Hb2 as <-.
  destruct H' as [(Hn' & _ & E') | (Hn' & E' & HA' & HB' & HC' & E2')];
  destruct H as [(Hn & _ & E) | (Hn & E & HA & HB & HC & E2)]; try lia.
  rewrite E2, E2'. replace n' with n by lia. reflexivity.
Qed.

(** ** Buying everything that is left (C12) *)
Lemma sell_out c f s a dest r :
  linear_wf c -> feeless f -> is_u64 a -> is_u64 s -> is_u64 dest ->
  curve_swap (LinearPrice c) s a dest AtoB f = Val r ->
  destination_amount_swapped r <= dest /\
  forall b0, b_value_with_amt_a_locked c (a * ONE) true = Val b0 ->
  (forall cost, 0 <= cost <= s -> sold_out_cost c a b0 dest cost ->
     destination_amount_swapped r = dest /\ source_amount_swapped r = cost) /\
  ((forall cost, 0 <= cost <= s -> ~ sold_out_cost c a b0 dest cost) -> source_amount_swapped r = s).
Proof.
  intros Hc Hf Ha Hs Hd H.
  apply feeless_swap in H; try assumption. destruct H as (H & _ & _ & HD & _).
  split; [exact HD |]. intros b0 Hb. cbn [swap_without_fees] in *.
  apply linear_swap_a_to_b in H; try assumption.
  destruct H as (Hp & _ & _ & b1 & Hb1 & H). unfold b_up in *. rewrite Hb in Hb1. injection Hb1 as <-.
  destruct H as [(E & Hsrc & Hso) | (E & Hno & _)].
  - split.
    + intros cost Hc1 Hso'. split; [exact E |].
      destruct Hso as (_ & Hso & _). destruct Hso' as (_ & Hso' & _). unfold ONE in *. lia.
    + intros Hno. exfalso. exact (Hno _ Hsrc Hso).
  - split; [| intros _; exact E].
    intros cost Hc1 Hso'. exfalso. exact (Hno _ Hc1 Hso').
Qed.

(** The charged cost against the exact area, for the position [b0] the program uses. *)
Lemma sold_out_exact c a b0 dest cost :
  linear_pos c -> 0 <= b0 -> 0 <= dest -> sold_out_cost c a b0 dest cost ->
  let den := cost_den c * ONE * ONE in
  2 * cost2 c (b0 + dest * ONE) < den * (2 * (a + cost) + 1) + 4 * cost_den c * ONE /\
  den * (2 * (a + cost) - 1) <= 2 * cost2 c (b0 + dest * ONE) + price_den c * ONE.
Proof.
  intros Hc Hb0 Hdest (H1 & H2 & H3 & _). cbv zeta.
  pose proof (area_exact c (b0 + dest * ONE) Hc ltac:(lia)) as [X1 X2].
  destruct Hc as (_ & P1 & P2 & P3). unfold cost_den. pose proof HALF_ONE as HH.
  set (ar := area c (b0 + dest * ONE)) in *. set (C := cost2 c (b0 + dest * ONE)) in *.
  clearbody ar C.
  set (sd := slope_den c) in *. set (pd := price_den c) in *. clearbody sd pd.
  assert (0 < 2 * ONE * sd * pd) by (unfold ONE; nia).
  split.
  - assert (2 * ONE * sd * pd * (2 * ar) < 2 * ONE * sd * pd * (2 * a * ONE + 2 * cost * ONE + ONE)).
    { apply Z.mul_lt_mono_pos_l; lia. }
    nia.
  - assert (2 * ONE * sd * pd * (2 * a * ONE + 2 * cost * ONE - ONE) <= 2 * ONE * sd * pd * (2 * ar)).
    { apply Z.mul_le_mono_nonneg_l; lia. }
    nia.
Qed.

(** A purchase charges the whole offer, or takes all remaining tokens at the exact
    cost up to rounding. *)
Lemma last_purchase c f s a dest r b0 :
  linear_wf c -> feeless f -> is_u64 a -> is_u64 s -> is_u64 dest ->
  curve_swap (LinearPrice c) s a dest AtoB f = Val r ->
  b_value_with_amt_a_locked c (a * ONE) true = Val b0 ->
  let den := cost_den c * ONE * ONE in
  let total := cost2 c (b0 + dest * ONE) in
  let cost := source_amount_swapped r in
  cost = s \/
  (destination_amount_swapped r = dest /\ cost < s /\
   2 * total < den * (2 * (a + cost) + 1) + 4 * cost_den c * ONE /\
   den * (2 * (a + cost) - 1) <= 2 * total + price_den c * ONE).
Proof.
  intros Hc Hf Ha Hs Hd H Hb. cbv zeta.
  apply feeless_swap in H; try assumption. destruct H as (H & _ & _ & HD & _).
  cbn [swap_without_fees] in *. apply linear_swap_a_to_b in H; try assumption.
  destruct H as (Hp & _ & _ & b1 & Hb1 & H). unfold b_up in *. rewrite Hb in Hb1. injection Hb1 as <-.
  destruct H as [(E & Hsrc & Hso) | (E & Hno & _)]; [| left; exact E].
  destruct (Z.eq_dec (source_amount_swapped r) s) as [He | Hne]; [left; exact He | right].
  split; [exact E |]. split; [lia |].
  apply sold_out_exact; try assumption.
  - apply (b_up_bounds c a); try assumption. unfold is_u64, u64_max in Ha; lia.
  - unfold is_u64 in Hd; lia.
Qed.

(** Conversely an offer that covers the exact cost of all remaining tokens, rounded
    up by one half, gets all of them. *)
Lemma covered_sells_out c f s a dest r b0 :
  linear_wf c -> feeless f -> is_u64 a -> is_u64 s -> is_u64 dest ->
  curve_swap (LinearPrice c) s a dest AtoB f = Val r ->
  b_value_with_amt_a_locked c (a * ONE) true = Val b0 ->
  let den := cost_den c * ONE * ONE in
  let total := cost2 c (b0 + dest * ONE) in
  den * a + cost_den c * ONE <= total ->
  2 * total + price_den c * ONE < den * (2 * (a + s) + 1) ->
  destination_amount_swapped r = dest.
Proof.
  intros Hc Hf Ha Hs Hd H Hb. cbv zeta. intros HL HU.
  apply feeless_swap in H; try assumption. destruct H as (H & _ & _ & HD & _).
  cbn [swap_without_fees] in *. apply linear_swap_a_to_b in H; try assumption.
  destruct H as (Hp & _ & _ & b1 & Hb1 & H). assert (Hb1' := Hb1).
  unfold b_up in Hb1. rewrite Hb in Hb1. injection Hb1 as <-.
  destruct H as [(E & Hsrc & Hso) | (E & Hno & _)]; [exact E | exfalso].
  assert (Hb0 : 0 <= b0) by (apply (b_up_bounds c a); try assumption; unfold is_u64, u64_max in Ha; lia).
  unfold is_u64, u64_max in *.
  assert (Hx : 0 <= b0 + dest * ONE) by (unfold ONE; lia).
  set (x := b0 + dest * ONE) in *.
  pose proof (area_exact c x Hp Hx) as [X1 X2]. pose proof HALF_ONE as HH.
  pose proof (area_nonneg c x Hp Hx) as Xn.
  assert (Hp' := Hp). destruct Hp' as (Hwf & P1 & P2 & P3). destruct Hwf as (_ & _ & Pn & _). unfold is_u64 in Pn.
  unfold cost_den in *. set (sd := slope_den c) in *. set (pd := price_den c) in *.
  set (sn := slope_num c) in *.
  assert (Hsp : 0 < 2 * ONE * sd * pd) by (unfold ONE; nia).
  assert (HarL : a * ONE <= area c x).
  { assert (2 * ONE * sd * pd * (a * ONE + 1) < 2 * ONE * sd * pd * (area c x + 2)) by nia.
    assert (a * ONE + 1 < area c x + 2); [| lia].
    apply (Z.mul_lt_mono_pos_l (2 * ONE * sd * pd)); assumption. }
  assert (HarU : 2 * area c x < 2 * (a + s) * ONE + ONE).
  { assert (2 * ONE * sd * pd * (2 * area c x) < 2 * ONE * sd * pd * (2 * (a + s) * ONE + ONE)) by nia.
    apply (Z.mul_lt_mono_pos_l (2 * ONE * sd * pd)); assumption. }
  assert (Hsq : sn * x * x < 2 ^ 252).
  { assert (sn * pd * x * x <= cost2 c x).
    { unfold cost2. fold sn pd sd. assert (0 <= 2 * sd * price_num c * x * ONE).
      { repeat apply Z.mul_nonneg_nonneg; unfold ONE; lia. } lia. }
    assert (pd * (sn * x * x) < pd * (sd * ONE * ONE * 2 ^ 67)).
    { assert (0 < sd * pd * ONE * ONE) by (unfold ONE; nia).
      assert (2 * sd * pd * ONE * ONE * (2 * (a + s) + 1) <= 2 * sd * pd * ONE * ONE * (2 ^ 66)).
      { apply Z.mul_le_mono_nonneg_l; lia. }
      nia. }
    assert (sn * x * x < sd * ONE * ONE * 2 ^ 67) by nia.
    destruct Hc as (_ & Hsd & _). unfold is_u64, u64_max in Hsd. fold sd in Hsd.
    unfold ONE in *. lia. }
  assert (Hx126 : x < 2 ^ 126).
  { destruct (Z.lt_ge_cases x (2 ^ 126)) as [| Hge]; [assumption | exfalso].
    assert (2 ^ 126 * 2 ^ 126 <= x * x) by (apply Z.mul_le_mono_nonneg; lia).
    assert (x * x <= sn * x * x) by nia. lia. }
  set (cost := (area c x - a * ONE + HALF) / ONE).
  pose proof (div_bounds (area c x - a * ONE + HALF) ONE ONE_pos) as D. fold cost in D.
  apply (Hno cost).
  - split; [apply Z.div_pos; [vm_compute in HH; unfold HALF; lia | exact ONE_pos] |].
    unfold ONE, HALF in *. lia.
  - unfold sold_out_cost. fold x sn. repeat split; try lia.
Qed.

(** ** Abortion (C13) *)
Lemma b_up_panic c a : linear_pos c -> 0 <= a < 2 ^ 65 ->
  (b_up c a = Panic <-> exists k, 1 <= k /\ (2 ^ 64 - 1) * 4 ^ k < disc c a < 2 ^ 64 * 4 ^ k).
Proof.
  intros Hc Ha. unfold b_up. rewrite b_value_closed by assumption.
  assert (Hd : is_u256 (disc c a)).
  { pose proof (disc_bounds c a Hc Ha). unfold is_u256, u256_max. lia. }
  destruct (dfs_sqrt_panic_iff (disc c a) true Hd) as [_ Hp].
  rewrite obind_panic. rewrite Hp. split.
  - intros [[_ H] | (x & _ & H)]; [exact H | discriminate].
  - intros H. left. split; [reflexivity | exact H].
Qed.

Lemma area_no_panic c b : amt_a_locked_at_b_value c b <> Panic.
Proof. unfold amt_a_locked_at_b_value, dfs_new, dfs_add. no_panic. Qed.

Lemma dfs_floor_no_panic x : dfs_floor x <> Panic.
Proof. unfold dfs_floor. no_panic. Qed.
Lemma dfs_ceiling_no_panic x : dfs_ceiling x <> Panic.
Proof. unfold dfs_ceiling. no_panic. Qed.

Lemma linear_swap_panic c s ss sd d :
  linear_pos c -> is_u64 s -> is_u64 ss -> is_u64 sd ->
  (linear_swap c s ss sd d = Panic <-> b_up c (side_a d ss sd) = Panic).
Proof.
  intros Hc Hs Hss Hsd. unfold is_u64, u64_max in *. unfold linear_swap, b_up.
  destruct d; cbn [side_a].
  - unfold swap_a_to_b. rewrite dfs_new_val by (unfold ONE, u256_max; lia). cbn [obind].
    destruct (b_value_with_amt_a_locked c (ss * ONE) true) as [b0 | |] eqn:E; cbn [obind].
    + split; [| discriminate]. intros H. exfalso. revert H.
      match goal with |- ?x = Panic -> False => change (x <> Panic) end.
      destruct (maximum_a_remaining c (ss * ONE) b0 s sd) as [[x y] | |] eqn:E1.
      * cbn [obind]. no_panic.
      * rewrite dfs_new_val by (unfold ONE, u256_max; lia). cbn [obind].
        unfold dfs_add. rewrite add_in_eq by (unfold ONE, u256_max; lia). cbn [obind].
        replace (ss * ONE + s * ONE) with ((ss + s) * ONE) by ring.
        destruct (b_value_down_total c (ss + s) Hc ltac:(lia)) as [b1 E2]. rewrite E2. cbn [obind].
        unfold dfs_sub. apply obind_no_panic; [| intros [x y] _; no_panic].
        apply obind_no_panic; [no_panic |]. intros ? ?.
        apply obind_no_panic; [apply dfs_floor_no_panic |]. intros ? ?. no_panic.
      * exfalso. exact (max_remaining_no_panic _ _ _ _ _ E1).
    + split; discriminate.
    + split; reflexivity.
  - unfold swap_b_to_a. rewrite !dfs_new_val by (unfold ONE, u256_max; lia). cbn [obind].
    destruct (b_value_with_amt_a_locked c (sd * ONE) true) as [b0 | |] eqn:E; cbn [obind].
    + split; [| discriminate]. intros H. exfalso. revert H.
      match goal with |- ?x = Panic -> False => change (x <> Panic) end.
      destruct (dfs_unsigned_sub b0 (s * ONE)) as [e neg]. unfold dfs_sub.
      apply obind_no_panic; [| intros [x y] _; no_panic].
      apply obind_no_panic; [apply dfs_ceiling_no_panic |]. intros ? ?.
      destruct neg; [no_panic |].
      apply obind_no_panic; [apply area_no_panic |]. intros ? ?.
      apply obind_no_panic; [no_panic |]. intros ? ?.
      apply obind_no_panic; [apply dfs_floor_no_panic |]. intros ? ?. no_panic.
    + split; discriminate.
    + split; reflexivity.
Qed.

Lemma linear_panic_iff c s ss sd d :
  linear_wf c -> linear_validate c = Ok tt -> is_u64 s -> is_u64 ss -> is_u64 sd ->
  (linear_swap c s ss sd d = Panic <->
   exists k, 1 <= k /\ (2 ^ 64 - 1) * 4 ^ k < disc c (side_a d ss sd) < 2 ^ 64 * 4 ^ k).
Proof.
  intros Hc Hv Hs Hss Hsd. destruct (linear_validate_iff c Hc) as [[V _] _]. apply V in Hv.
  assert (Hp : linear_pos c).
  { split; [exact Hc |]. destruct Hc as (H1 & H2 & H3 & H4). unfold is_u64 in *. lia. }
  rewrite linear_swap_panic by assumption. apply b_up_panic; [exact Hp |].
  unfold is_u64, u64_max in *. destruct d; cbn; lia.
Qed.

Lemma linear_swap_aborts : exists c s ss sd d,
  linear_wf c /\ linear_validate c = Ok tt /\ is_u64 s /\ is_u64 ss /\ is_u64 sd /\
  linear_swap c s ss sd d = Panic.
Proof.
  exists (mk_linear 1 1 0 1), 1, 10633823966279326983, 1000, AtoB.
  vm_compute. repeat split; congruence.
Qed.

(** ** Accuracy of purchases (C08) *)
Definition slack (c : linear_curve) : Z := 1414213563 * slope_den c * price_den c.

Lemma slack_sq c : linear_pos c ->
  2 * ONE * (slope_den c * price_den c) * (slope_den c * price_den c) <= slack c * slack c.
Proof.
  intros (_ & _ & P2 & P3). unfold slack, ONE.
  assert (0 < slope_den c * price_den c) by nia.
  set (k := slope_den c * price_den c) in *. nia.
Qed.

Lemma sq_diff x w : 0 <= w -> x <= w \/ (x - w) * (x - w) <= x * x - w * w.
Proof. intros Hw. destruct (Z.le_gt_cases x w); [left; assumption | right; nia]. Qed.

Lemma normal_purchase c f s a dest r :
  linear_wf c -> feeless f -> is_u64 a -> is_u64 s -> is_u64 dest ->
  curve_swap (LinearPrice c) s a dest AtoB f = Val r -> destination_amount_swapped r < dest ->
  linear_pos c /\ source_amount_swapped r = s /\ 0 < destination_amount_swapped r /\
  exists r0 r1, dfs_sqrt_u64 (disc c a) true = Val r0 /\ dfs_sqrt_u64 (disc c (a + s)) false = Val r1 /\
    0 <= r0 /\ 0 <= r1 /\
    destination_amount_swapped r * ONE <= b_of_root c r1 - b_of_root c r0
      < (destination_amount_swapped r + 1) * ONE.
Proof.
  intros Hc Hf Ha Hs Hd H Hlt.
  apply feeless_swap in H; try assumption. destruct H as (H & _ & _ & HD & _).
  cbn [swap_without_fees] in *. apply linear_swap_a_to_b in H; try assumption.
  destruct H as (Hp & _ & Hpos & b0 & Hb0 & H).
  destruct H as [(E & _) | (E & _ & b1 & Hb1 & Hle & E2 & _)]; [lia |].
  split; [exact Hp |]. split; [exact E |]. split; [exact Hpos |].
  unfold is_u64, u64_max in *.
  apply b_value_val in Hb0; [| assumption | lia]. apply b_value_val in Hb1; [| assumption | lia].
  destruct Hb0 as (r0 & R0 & -> & Z0 & _). destruct Hb1 as (r1 & R1 & -> & Z1 & _).
  exists r0, r1. split; [exact R0 |]. split; [exact R1 |]. split; [lia |]. split; [lia |].
  rewrite E2. apply div_bounds. exact ONE_pos.
Qed.

Lemma purchase_lower c f s a dest r p0 p1 :
  linear_wf c -> feeless f -> is_u64 a -> is_u64 s -> is_u64 dest ->
  curve_swap (LinearPrice c) s a dest AtoB f = Val r -> destination_amount_swapped r < dest ->
  0 <= p0 -> 0 <= p1 ->
  ONE * ONE * slope_den c * exact_disc c a <= p0 * p0 ->
  p1 * p1 <= ONE * ONE * slope_den c * exact_disc c (a + s) ->
  2 ^ 31 * (2 ^ 31 - 1) * (p1 - slack c) - 2 ^ 31 * (2 ^ 31 + 1) * p0 <
  (2 ^ 62 - 1) * (slope_num c * price_den c * (destination_amount_swapped r + 1) * ONE
                  + 3 * slope_den c * price_den c).
Proof.
  intros Hc Hf Ha Hs Hd H Hlt Hp0 Hp1 HL HU.
  destruct (normal_purchase c f s a dest r) as (Hp & _ & Hpos & r0 & r1 & R0 & R1 & Z0 & Z1 & HB);
    try assumption.
  unfold is_u64, u64_max in *.
  assert (D0 := disc_bounds c a Hp ltac:(lia)). assert (D1 := disc_bounds c (a + s) Hp ltac:(lia)).
  assert (U0 : is_u256 (disc c a)) by (unfold is_u256, u256_max; lia).
  assert (U1 : is_u256 (disc c (a + s))) by (unfold is_u256, u256_max; lia).
  destruct (dfs_sqrt_up_spec _ _ U0 R0) as (_ & _ & S1 & S2).
  destruct (dfs_sqrt_down_spec _ _ U1 R1) as (_ & _ & S3).
  assert (X0 := up_price c a r0 Hp ltac:(lia) Z0 S2 S1 ltac:(lia)). cbv zeta in X0.
  assert (X1 := down_price c (a + s) r1 Hp ltac:(lia) Z1 S3). cbv zeta in X1.
  pose proof (slack_sq c Hp) as HW.
  destruct Hp as (_ & P1 & P2 & P3).
  set (B0 := b_of_root c r0) in *. set (B1 := b_of_root c r1) in *.
  assert (HB1 : 0 <= B1).
  { subst B1. unfold b_of_root. apply Z.div_pos; [| lia]. apply Z.mul_nonneg_nonneg; lia. }
  set (n := destination_amount_swapped r) in *.
  unfold price_num_at in *.
  set (sn := slope_num c) in *. set (sd := slope_den c) in *. set (pd := price_den c) in *.
  set (pn := price_num c) in *. set (w := slack c) in *.
  assert (Hw : 0 <= w) by (subst w; unfold slack; fold sd pd; nia).
  set (E0 := exact_disc c a) in *. set (E1 := exact_disc c (a + s)) in *.
  assert (Hpn : 0 <= pn) by (destruct Hc as (_ & _ & Hx & _); unfold is_u64 in Hx; subst pn; lia).
  clearbody B0 B1 n E0 E1 w. pose proof ONE_pos as HO. set (O := ONE) in *. clearbody O.
  change (2 ^ 62 - 1) with ((2 ^ 31 - 1) * (2 ^ 31 + 1)).
  set (K := 2 ^ 31) in *. assert (HK : 1 < K) by (subst K; reflexivity).
  clear S1 S2 S3 R0 R1 D0 D1 U0 U1 H Ha Hs Hd Hc. clearbody K.
  assert (Y0 : (pn * sd * O + sn * pd * B0 - 2 * sd * pd) * (K - 1) <= K * p0).
  { set (m := Z.max 0 (pn * sd * O + sn * pd * B0 - 2 * sd * pd)) in *.
    assert (Hm : pn * sd * O + sn * pd * B0 - 2 * sd * pd <= m) by (subst m; lia).
    apply Z.le_trans with (m * (K - 1)); [apply Z.mul_le_mono_nonneg_r; lia |].
    apply sq_le_inv; [apply Z.mul_nonneg_nonneg; lia |].
    eapply Z.le_trans; [exact X0 |].
    replace (O * O * (K * K) * sd * E0) with (K * K * (O * O * sd * E0)) by ring.
    replace (K * p0 * (K * p0)) with (K * K * (p0 * p0)) by ring.
    apply Z.mul_le_mono_nonneg_l; [apply Z.mul_nonneg_nonneg; lia | exact HL]. }
  set (bd := pn * sd * O + sn * pd * (B1 + 1) + sd * pd) in *.
  assert (Hbd : 0 < bd).
  { subst bd. clear X0 X1 HL HU HW Y0 HB Hlt.
    assert (0 <= pn * sd * O) by (repeat apply Z.mul_nonneg_nonneg; lia).
    assert (0 <= sn * pd * (B1 + 1)) by (repeat apply Z.mul_nonneg_nonneg; lia).
    assert (0 < sd * pd) by (apply Z.mul_pos_pos; lia). lia. }
  assert (Y1 : K * (p1 - w) < bd * (K + 1)).
  { assert (Hbk : 0 < bd * (K + 1)) by (apply Z.mul_pos_pos; lia).
    destruct (sq_diff p1 w Hw) as [Hle | Hsq].
    - assert (K * (p1 - w) <= 0) by (apply Z.mul_nonneg_nonpos; lia). lia.
    - apply sq_lt_inv; [lia |].
      eapply Z.le_lt_trans; [| exact X1].
      replace (K * (p1 - w) * (K * (p1 - w))) with (K * K * ((p1 - w) * (p1 - w))) by ring.
      replace (O * (K * K) * sd * (E1 * O - 2 * pd * pd * sd))
        with (K * K * (O * O * sd * E1 - 2 * O * (sd * pd) * (sd * pd))) by ring.
      apply Z.mul_le_mono_nonneg_l; [apply Z.mul_nonneg_nonneg; lia | lia]. }
  assert (Z2 : bd - (pn * sd * O + sn * pd * B0 - 2 * sd * pd) <=
               sn * pd * (n + 1) * O + 3 * sd * pd).
  { subst bd. assert (sn * pd * (B1 + 1 - B0) <= sn * pd * ((n + 1) * O)).
    { apply Z.mul_le_mono_nonneg_l; [apply Z.mul_nonneg_nonneg; lia | lia]. } nia. }
  set (P0 := pn * sd * O + sn * pd * B0 - 2 * sd * pd) in *. clearbody P0 bd.
  set (Q := sn * pd * (n + 1) * O + 3 * sd * pd) in *. clearbody Q.
  assert ((K - 1) * (K + 1) * (bd - P0) <= (K - 1) * (K + 1) * Q).
  { apply Z.mul_le_mono_nonneg_l; [apply Z.mul_nonneg_nonneg; lia | lia]. }
  assert ((K - 1) * (K * (p1 - w)) < (K - 1) * (bd * (K + 1))) by (apply Z.mul_lt_mono_pos_l; lia).
  assert ((K + 1) * (P0 * (K - 1)) <= (K + 1) * (K * p0)) by (apply Z.mul_le_mono_nonneg_l; lia).
  replace ((K - 1) * (K + 1) * (bd - P0)) with ((K - 1) * (bd * (K + 1)) - (K + 1) * (P0 * (K - 1))) in * by ring.
  replace (K * (K - 1) * (p1 - w)) with ((K - 1) * (K * (p1 - w))) by ring.
  replace (K * (K + 1) * p0) with ((K + 1) * (K * p0)) by ring.
  lia.
Qed.

Lemma purchase_upper c f s a dest r p0 p1 :
  linear_wf c -> feeless f -> is_u64 a -> is_u64 s -> is_u64 dest ->
  curve_swap (LinearPrice c) s a dest AtoB f = Val r -> destination_amount_swapped r < dest ->
  0 <= p0 -> 0 <= p1 ->
  p0 * p0 <= ONE * ONE * slope_den c * exact_disc c a ->
  ONE * ONE * slope_den c * exact_disc c (a + s) <= p1 * p1 ->
  slope_num c * price_den c * (destination_amount_swapped r * ONE - 1) <=
  p1 - p0 + slack c + slope_den c * price_den c.
Proof.
  intros Hc Hf Ha Hs Hd H Hlt Hp0 Hp1 HL HU.
  destruct (normal_purchase c f s a dest r) as (Hp & _ & Hpos & r0 & r1 & R0 & R1 & Z0 & Z1 & HB);
    try assumption.
  unfold is_u64, u64_max in *.
  assert (D0 := disc_bounds c a Hp ltac:(lia)). assert (D1 := disc_bounds c (a + s) Hp ltac:(lia)).
  assert (U0 : is_u256 (disc c a)) by (unfold is_u256, u256_max; lia).
  assert (U1 : is_u256 (disc c (a + s))) by (unfold is_u256, u256_max; lia).
  destruct (dfs_sqrt_up_spec _ _ U0 R0) as (_ & S1 & _).
  destruct (dfs_sqrt_down_spec _ _ U1 R1) as (_ & S3 & _).
  pose proof (slack_sq c Hp) as HW.
  pose proof (disc_exact c a Hp ltac:(lia)) as X0. pose proof (disc_exact c (a + s) Hp ltac:(lia)) as X1.
  cbv zeta in X0, X1. pose proof (e_val_exact c Hp) as HE.
  destruct Hp as (_ & P1 & P2 & P3). pose proof ONE_pos as HO.
  assert (HB0 : (r0 - e_val c) * slope_den c <= slope_num c * (b_of_root c r0 + 1)).
  { unfold b_of_root. pose proof (div_bounds (Z.max 0 (r0 - e_val c) * slope_den c) (slope_num c) P1).
    assert ((r0 - e_val c) * slope_den c <= Z.max 0 (r0 - e_val c) * slope_den c)
      by (apply Z.mul_le_mono_nonneg_r; lia). lia. }
  assert (HB1 : slope_num c * b_of_root c r1 <= (r1 - e_val c) * slope_den c).
  { destruct (Z.le_gt_cases (e_val c) r1) as [Hle | Hgt].
    - unfold b_of_root. rewrite Z.max_r by lia.
      pose proof (div_bounds ((r1 - e_val c) * slope_den c) (slope_num c) P1). lia.
    - exfalso. assert (b_of_root c r1 = 0).
      { unfold b_of_root. rewrite Z.max_l by lia. apply Z.div_0_l. lia. }
      assert (0 <= b_of_root c r0).
      { unfold b_of_root. apply Z.div_pos; [| lia]. apply Z.mul_nonneg_nonneg; lia. }
      unfold ONE in *. lia. }
  set (B0 := b_of_root c r0) in *. set (B1 := b_of_root c r1) in *.
  set (n := destination_amount_swapped r) in *.
  unfold exact_disc in *.
  set (sn := slope_num c) in *. set (sd := slope_den c) in *. set (pd := price_den c) in *.
  set (pn := price_num c) in *. set (w := slack c) in *. set (e := e_val c) in *.
  assert (Hw : 0 <= w) by (subst w; unfold slack; fold sd pd; nia).
  set (E0 := disc c a) in *. set (E1 := disc c (a + s)) in *.
  set (F0 := 2 * sn * a * pd * pd) in *. set (F1 := 2 * sn * (a + s) * pd * pd) in *.
  clearbody B0 B1 n E0 E1 w e F0 F1. set (O := ONE) in *. clearbody O.
  clear R0 R1 D0 D1 U0 U1 H Ha Hs Hd Hc.
  assert (0 < sd * pd) by nia.
  assert (Y0 : p0 - w <= r0 * (sd * pd)).
  { destruct (Z.le_gt_cases p0 w) as [Hle | Hgt]; [nia |].
    apply sq_le_inv; [nia |].
    apply Z.le_trans with (p0 * p0 - w * w); [nia |].
    replace (r0 * (sd * pd) * (r0 * (sd * pd))) with (r0 * r0 * (sd * pd * (sd * pd))) by ring.
    apply Z.le_trans with (E0 * O * (sd * pd * (sd * pd)));
      [| apply Z.mul_le_mono_nonneg_r; [apply Z.mul_nonneg_nonneg; lia | exact S1]].
    assert (O * sd * (pn * pn * sd * O + F0 * O) <= O * sd * ((E0 + 2) * (pd * pd * sd))).
    { apply Z.mul_le_mono_nonneg_l; [apply Z.mul_nonneg_nonneg; lia | lia]. }
    nia. }
  assert (Y1 : r1 * (sd * pd) <= p1).
  { apply sq_le_inv; [exact Hp1 |].
    replace (r1 * (sd * pd) * (r1 * (sd * pd))) with (r1 * r1 * (sd * pd * (sd * pd))) by ring.
    apply Z.le_trans with (E1 * O * (sd * pd * (sd * pd)));
      [apply Z.mul_le_mono_nonneg_r; [apply Z.mul_nonneg_nonneg; lia | exact S3] |].
    assert (O * sd * (E1 * (pd * pd * sd)) <= O * sd * (pn * pn * sd * O + F1 * O)).
    { apply Z.mul_le_mono_nonneg_l; [apply Z.mul_nonneg_nonneg; lia | lia]. }
    nia. }
  assert (sn * pd * (n * O - 1) <= sn * pd * (B1 - (B0 + 1))).
  { apply Z.mul_le_mono_nonneg_l; [apply Z.mul_nonneg_nonneg; lia | lia]. }
  assert (pd * ((r0 - e) * sd) <= pd * (sn * (B0 + 1))) by (apply Z.mul_le_mono_nonneg_l; lia).
  assert (pd * (sn * B1) <= pd * ((r1 - e) * sd)) by (apply Z.mul_le_mono_nonneg_l; lia).
  nia.
Qed.

(** ** The reported value of a pool's holdings (C49) *)
Lemma value_form c a b v : linear_pos c -> is_u64 a -> is_u64 b ->
  linear_normalized_value c a b = Val v ->
  exists p, b_down c a = Val p /\
    v = (p + b * ONE) / 2 ^ Z.max 0 (Z.log2 (p + b * ONE) - 31) /\ 0 <= p.
Proof.
  intros Hp Ha Hb H. unfold is_u64, u64_max in *. unfold linear_normalized_value, dfs_new in H. inv.
  match goal with H : b_value_with_amt_a_locked _ _ _ = Val ?x |- _ => rename H into HB; exists x end.
  split; [exact HB |].
  pose proof (b_value_val c a false _ Hp ltac:(lia) HB) as (_ & _ & _ & _ & Hx).
  split; [| lia]. unfold dfs_add in *. inv.
  match goal with |- (if 32 <? bits ?x then _ else _) = _ => set (t := x) end.
  unfold shr256, bits. destruct (Z.eqb_spec t 0) as [E | E].
  { rewrite E. reflexivity. }
  destruct (Z.ltb_spec 32 (Z.log2 t + 1)).
  - rewrite Z.max_r by lia. f_equal. f_equal. lia.
  - rewrite Z.max_l by lia. rewrite Z.div_1_r. reflexivity.
Qed.

Lemma value_mono_same_length c a b a' b' v v' :
  linear_pos c -> is_u64 a -> is_u64 b -> is_u64 a' -> is_u64 b' -> a <= a' -> b <= b' ->
  linear_normalized_value c a b = Val v -> linear_normalized_value c a' b' = Val v' ->
  exists t t', v = t / 2 ^ Z.max 0 (Z.log2 t - 31) /\ v' = t' / 2 ^ Z.max 0 (Z.log2 t' - 31) /\
    0 <= t <= t' /\ (Z.log2 t = Z.log2 t' -> v <= v').
Proof.
  intros Hp Ha Hb Ha' Hb' La Lb H H'. pose proof ONE_pos.
  destruct (value_form c a b v Hp Ha Hb H) as (p & P & -> & Hpos).
  destruct (value_form c a' b' v' Hp Ha' Hb' H') as (p' & P' & -> & Hpos').
  unfold is_u64, u64_max in *.
  assert (Hpp : p <= p') by (eapply (b_value_mono c a a'); [exact Hp | lia .. | exact P | exact P']).
  assert (Ht : 0 <= p + b * ONE <= p' + b' * ONE) by nia.
  exists (p + b * ONE), (p' + b' * ONE). split; [reflexivity |]. split; [reflexivity |].
  split; [exact Ht |]. intros E. rewrite E. apply Z.div_le_mono; [apply Z.pow_pos_nonneg; lia | lia].
Qed.

Lemma value_decreases : exists c a b b' v v',
  linear_wf c /\ linear_validate c = Ok tt /\ is_u64 a /\ is_u64 b /\ is_u64 b' /\ b < b' /\
  linear_normalized_value c a b = Val v /\ linear_normalized_value c a b' = Val v' /\ v' < v.
Proof.
  exists (mk_linear 1 2 1 1), 0, 4, 5, 3725290298, 2328306436.
  vm_compute. repeat split; congruence.
Qed.
