(** When tokens can be sold back to a linear pool, and for how much. *)
From Verif Require Import Ints Tactics DfsPrecise Fees LinearCurve SwapCurve Spec DfsFacts CurveFacts
  LinearFacts SwapFacts LinearExact LinearProps.

Lemma validated_pos c : linear_wf c -> linear_validate c = Ok tt -> linear_pos c.
Proof.
  intros Hc Hv. destruct (linear_validate_iff c Hc) as [[V _] _]. apply V in Hv.
  split; [exact Hc |]. destruct Hc as (H1 & H2 & H3 & H4). unfold is_u64 in *. lia.
Qed.

(** A quote of the curve becomes a swap. *)
Lemma quote_is_swap c n ss a f src dst : linear_wf c -> feeless f -> is_u64 n -> is_u64 ss -> is_u64 a ->
  swap_b_to_a c n ss a = Val (src, dst) -> 0 < src <= n -> 0 < dst <= a ->
  curve_swap (LinearPrice c) n ss a BtoA f = Val (mk_swap_result (ss + src) (a - dst) src dst 0 0).
Proof.
  intros Hc Hf Hn Hss Ha H Hsrc Hdst. unfold is_u64, u64_max in *.
  apply feeless_swap; [exact Hf | unfold is_u64, u64_max; lia |].
  cbn [swap_without_fees source_amount_swapped destination_amount_swapped new_swap_source_amount
       new_swap_destination_amount trade_fee owner_fee].
  split; [| unfold u128_max; repeat split; lia].
  unfold linear_swap. rewrite H. cbn [obind]. unfold map_zero_to_none.
  destruct (Z.eqb_spec src 0); [lia |]. cbn [obind]. destruct (Z.eqb_spec dst 0); [lia |]. reflexivity.
Qed.

(** ** Leaving altogether *)
Lemma exit_pays c f n ss a b0 : linear_wf c -> linear_validate c = Ok tt -> feeless f ->
  is_u64 n -> is_u64 ss -> is_u64 a -> 0 < a ->
  b_value_with_amt_a_locked c (a * ONE) true = Val b0 -> b0 < n * ONE -> ONE <= 2 * b0 ->
  exists k, 2 * k * ONE - ONE <= 2 * b0 < 2 * k * ONE + ONE /\
    curve_swap (LinearPrice c) n ss a BtoA f = Val (mk_swap_result (ss + k) 0 k a 0 0).
Proof.
  intros Hc Hv Hf Hn Hss Ha Hpos Hb Hlt Hhalf. pose proof (validated_pos c Hc Hv) as Hp.
  exists ((2 * b0 + ONE) / (2 * ONE)).
  pose proof (div_bounds (2 * b0 + ONE) (2 * ONE) ltac:(unfold ONE; lia)) as D.
  set (k := (2 * b0 + ONE) / (2 * ONE)) in *. clearbody k.
  split; [lia |].
  assert (Hk : 0 < k <= n) by (unfold ONE in *; lia).
  replace 0 with (a - a) at 1 by lia.
  apply quote_is_swap; try assumption; [| lia].
  apply swap_b_to_a_val; try assumption. exists b0. split; [exact Hb |]. left.
  split; [exact Hlt |]. split; [lia | reflexivity].
Qed.

(** ** Selling part of the position *)
(** The exact area under the line at whole tokens decides, up to 2 * 10^-18 units. *)
Lemma area_below c e v : linear_pos c -> 0 <= e -> 0 <= v ->
  cost_num c e * ONE + price_den c <= cost_den c * v -> area c (e * ONE) <= v.
Proof.
  intros Hp He Hv H.
  pose proof (area_exact c (e * ONE) Hp ltac:(unfold ONE; lia)) as [X _]. rewrite cost2_whole in X.
  destruct Hp as (_ & P1 & P2 & P3). unfold cost_den in H.
  set (ar := area c (e * ONE)) in *. clearbody ar.
  set (sd := slope_den c) in *. set (pd := price_den c) in *. set (C := cost_num c e) in *.
  clearbody sd pd C.
  assert (0 < sd * pd) by nia.
  assert (ONE * (C * ONE + pd) <= ONE * (2 * sd * pd * v)) by (unfold ONE in *; lia).
  assert (2 * ONE * sd * pd * ar <= 2 * ONE * sd * pd * v) by (unfold HALF, ONE in *; lia).
  unfold ONE in *; nia.
Qed.

Lemma end_unique b0 n e : (e - 1) * ONE < b0 - n * ONE <= e * ONE -> e = end_position b0 n.
Proof. intros H. apply cdivup_unique; [exact ONE_pos | lia]. Qed.

Lemma area_limits c e a : linear_pos c -> 0 <= e -> is_u64 a -> area c (e * ONE) <= a * ONE ->
  0 <= e * ONE < 2 ^ 126 /\ slope_num c * (e * ONE) * (e * ONE) < 2 ^ 252.
Proof.
  intros Hp He Ha H. unfold is_u64, u64_max in Ha.
  pose proof (area_exact c (e * ONE) Hp ltac:(unfold ONE; lia)) as [_ X]. unfold cost2 in X.
  destruct Hp as ((_ & Hsd & Hpn & Hpd) & P1 & P2 & P3). unfold is_u64, u64_max in *.
  set (x := e * ONE) in *. assert (0 <= x) by (subst x; unfold ONE; lia). clearbody x.
  set (sd := slope_den c) in *. set (pd := price_den c) in *. set (sn := slope_num c) in *.
  set (pn := price_num c) in *. set (ar := area c x) in *. clearbody sd pd sn pn ar.
  assert (0 <= 2 * sd * pn * x * ONE) by (repeat apply Z.mul_nonneg_nonneg; unfold ONE; lia).
  assert (Hlt : pd * (sn * x * x) < pd * (2 * ONE * sd * (ar + 2))) by lia.
  assert (Hq : sn * x * x < 2 * ONE * sd * (ar + 2)) by nia.
  assert (2 * ONE * sd * (ar + 2) <= 2 * ONE * sd * (a * ONE + 2)).
  { apply Z.mul_le_mono_nonneg_l; [unfold ONE; lia | lia]. }
  assert (2 * ONE * sd * (a * ONE + 2) <= 2 * ONE * 2 ^ 64 * (2 ^ 64 * ONE + 2)).
  { apply Z.mul_le_mono_nonneg; unfold ONE; lia. }
  assert (Hq2 : sn * x * x < 2 ^ 252) by (unfold ONE in *; lia).
  split; [| exact Hq2]. split; [assumption |].
  destruct (Z.lt_ge_cases x (2 ^ 126)) as [| Hge]; [assumption | exfalso].
  assert (2 ^ 126 * 2 ^ 126 <= x * x) by (apply Z.mul_le_mono_nonneg; lia).
  assert (x * x <= sn * x * x) by nia. lia.
Qed.

Lemma sale_closed c f n ss a b0 e : linear_wf c -> linear_validate c = Ok tt -> feeless f ->
  is_u64 n -> is_u64 ss -> is_u64 a -> 0 < n ->
  b_value_with_amt_a_locked c (a * ONE) true = Val b0 -> n * ONE <= b0 ->
  (e - 1) * ONE < b0 - n * ONE <= e * ONE -> area c (e * ONE) <= (a - 1) * ONE ->
  let p := (a * ONE - area c (e * ONE)) / ONE in
  0 < p <= a /\ curve_swap (LinearPrice c) n ss a BtoA f = Val (mk_swap_result (ss + n) (a - p) n p 0 0).
Proof.
  intros Hc Hv Hf Hn Hss Ha Hn0 Hb Hle He Har p. pose proof (validated_pos c Hc Hv) as Hp.
  assert (He0 : 0 <= e) by (unfold ONE in *; lia).
  pose proof (area_nonneg c (e * ONE) Hp ltac:(unfold ONE; lia)) as Hnn.
  destruct (area_limits c e a Hp He0 Ha) as [L1 L2]; [unfold ONE in *; lia |].
  assert (Hpp : 0 < p <= a).
  { pose proof (div_bounds (a * ONE - area c (e * ONE)) ONE ONE_pos) as D. fold p in D.
    unfold ONE in *. lia. }
  split; [exact Hpp |]. apply quote_is_swap; try assumption; [| lia].
  apply swap_b_to_a_val; try assumption. exists b0. split; [exact Hb |]. right.
  rewrite <- (end_unique b0 n e He). repeat split; try assumption; try lia.
Qed.

(** The sale goes through if the area at the position reached leaves at least one unit. *)
Lemma sale_succeeds c f n ss a b0 e : linear_wf c -> linear_validate c = Ok tt -> feeless f ->
  is_u64 n -> is_u64 ss -> is_u64 a -> 0 < n ->
  b_value_with_amt_a_locked c (a * ONE) true = Val b0 -> n * ONE <= b0 ->
  (e - 1) * ONE < b0 - n * ONE <= e * ONE ->
  cost_num c e * ONE + price_den c <= cost_den c * ((a - 1) * ONE) ->
  exists r, curve_swap (LinearPrice c) n ss a BtoA f = Val r.
Proof.
  intros Hc Hv Hf Hn Hss Ha Hn0 Hb Hle He Hcost. pose proof (validated_pos c Hc Hv) as Hp.
  assert (He0 : 0 <= e) by (unfold ONE in *; lia).
  eexists. eapply sale_closed; try eassumption.
  apply area_below; try assumption.
  assert (0 <= cost_num c e).
  { destruct Hp as ((_ & _ & X & _) & P1 & P2 & P3). unfold cost_num, is_u64 in *.
    assert (0 <= slope_num c * price_den c * e * e) by (repeat apply Z.mul_nonneg_nonneg; lia).
    assert (0 <= 2 * slope_den c * price_num c * e) by (repeat apply Z.mul_nonneg_nonneg; lia). lia. }
  destruct Hp as (_ & P1 & P2 & P3). unfold cost_den, ONE in *.
  assert (0 < slope_den c * price_den c) by nia. nia.
Qed.

Lemma sale_succeeds_only c f n ss a b0 e r : linear_wf c -> feeless f ->
  is_u64 n -> is_u64 ss -> is_u64 a ->
  b_value_with_amt_a_locked c (a * ONE) true = Val b0 -> n * ONE <= b0 ->
  (e - 1) * ONE < b0 - n * ONE <= e * ONE ->
  curve_swap (LinearPrice c) n ss a BtoA f = Val r ->
  cost_num c e * ONE < cost_den c * ((a - 1) * ONE + 2).
Proof.
  intros Hc Hf Hn Hss Ha Hb Hle He H.
  destruct (sale_leaves c f n ss a b0 r) as (e' & He' & _ & Hsum & Hc1 & _); try assumption.
  assert (Ee : e = e').
  { rewrite (end_unique b0 n e He), (end_unique b0 n e' He'). reflexivity. }
  subst e'.
  assert (0 < destination_amount_swapped r).
  { apply feeless_swap in H; try assumption. destruct H as (H & _). cbn [swap_without_fees] in H.
    apply linear_swap_b_to_a in H; try assumption. lia. }
  eapply Z.lt_le_trans; [exact Hc1 |].
  assert (Hp : linear_pos c).
  { apply feeless_swap in H; try assumption. destruct H as (H & _). cbn [swap_without_fees] in H.
    apply linear_swap_b_to_a in H; try assumption. apply H. }
  destruct Hp as (_ & P1 & P2 & P3). apply Z.mul_le_mono_nonneg_l.
  - unfold cost_den. nia.
  - unfold ONE. lia.
Qed.

(** ** How much a sale pays *)
(** The estimated position exceeds the exact one by a relative error of 2^-31 in the price. *)
Lemma position_above c a b0 x : linear_pos c -> is_u64 a ->
  b_value_with_amt_a_locked c (a * ONE) true = Val b0 -> 0 <= x ->
  ONE * ONE * cost_den c * a <= cost2 c x ->
  (price_num_at c b0 - 2 * slope_den c * price_den c) * (2 ^ 31 - 1) <= 2 ^ 31 * price_num_at c x.
Proof.
  intros Hp Ha Hb Hx Hcost. unfold is_u64, u64_max in Ha.
  apply b_value_val in Hb; [| assumption | lia]. destruct Hb as (r & R & -> & Hr & _).
  pose proof (disc_bounds c a Hp ltac:(lia)) as D.
  assert (U : is_u256 (disc c a)) by (unfold is_u256, u256_max; lia).
  destruct (dfs_sqrt_up_spec _ _ U R) as (_ & _ & S1 & S2).
  pose proof (up_price c a r Hp ltac:(lia) ltac:(lia) S2 S1 ltac:(lia)) as X. cbv zeta in X.
  set (B := b_of_root c r) in *. clearbody B.
  set (P := price_num_at c B - 2 * slope_den c * price_den c) in *.
  set (K := 2 ^ 31) in *. assert (HK : 1 < K) by (subst K; reflexivity). clearbody K.
  assert (HPx : 0 <= price_num_at c x).
  { destruct Hp as ((_ & _ & Y & _) & P1 & P2 & P3). unfold price_num_at, is_u64 in *.
    assert (0 <= price_num c * slope_den c * ONE) by (repeat apply Z.mul_nonneg_nonneg; unfold ONE; lia).
    assert (0 <= slope_num c * price_den c * x) by (repeat apply Z.mul_nonneg_nonneg; lia). lia. }
  apply Z.le_trans with (Z.max 0 P * (K - 1)); [apply Z.mul_le_mono_nonneg_r; lia |].
  apply sq_le_inv; [apply Z.mul_nonneg_nonneg; lia |].
  eapply Z.le_trans; [exact X |].
  replace (K * price_num_at c x * (K * price_num_at c x))
    with (K * K * (price_num_at c x * price_num_at c x)) by ring.
  replace (ONE * ONE * (K * K) * slope_den c * exact_disc c a)
    with (K * K * (ONE * ONE * slope_den c * exact_disc c a)) by ring.
  apply Z.mul_le_mono_nonneg_l; [apply Z.mul_nonneg_nonneg; lia |].
  destruct Hp as (_ & P1 & P2 & P3).
  unfold price_num_at, exact_disc, cost2, cost_den in *.
  set (sd := slope_den c) in *. set (pd := price_den c) in *. set (sn := slope_num c) in *.
  set (pn := price_num c) in *. clearbody sd pd sn pn. set (O := ONE) in *. clearbody O.
  assert (sn * pd * (O * O * (2 * sd * pd) * a) <= sn * pd * (sn * pd * x * x + 2 * sd * pn * x * O)).
  { apply Z.mul_le_mono_nonneg_l; [nia | exact Hcost]. }
  nia.
Qed.

(** [x] is at least the exact position of a pool holding [a].  Selling [n] tokens pays,
    up to one unit, at least what the top [m] tokens are worth, where [m] is smaller
    than [n] by one token and by the error of the square root. *)
Lemma sale_pays c f n ss a b0 x m : linear_wf c -> linear_validate c = Ok tt -> feeless f ->
  is_u64 n -> is_u64 ss -> is_u64 a -> 0 < n ->
  b_value_with_amt_a_locked c (a * ONE) true = Val b0 -> n * ONE <= b0 ->
  ONE * ONE * cost_den c * a <= cost2 c x -> m * ONE <= x ->
  price_num_at c x <= (2 ^ 31 - 1) * (slope_num c * price_den c * (n - 1 - m) * ONE
                                       - 2 * slope_den c * price_den c) ->
  cost2 c (x - m * ONE) + price_den c * ONE <= ONE * ONE * cost_den c * (a - 1) -> 0 <= m ->
  exists r, curve_swap (LinearPrice c) n ss a BtoA f = Val r /\ source_amount_swapped r = n /\
    ONE * ONE * cost_den c * (a - destination_amount_swapped r - 1) <
    cost2 c (x - m * ONE) + price_den c * ONE.
Proof.
  intros Hc Hv Hf Hn Hss Ha Hn0 Hb Hle Hx Hmx Herr Hcost Hm.
  pose proof (validated_pos c Hc Hv) as Hp.
  assert (Hx0 : 0 <= x) by (unfold ONE in *; lia).
  pose proof (position_above c a b0 x Hp Ha Hb Hx0 Hx) as HB.
  set (e := end_position b0 n).
  pose proof (cdivup_spec (b0 - n * ONE) ONE ONE_pos) as He.
  change (cdivup (b0 - n * ONE) ONE) with e in He. clearbody e.
  assert (He0 : 0 <= e) by (unfold ONE in *; lia).
  assert (HeX : e * ONE <= x - m * ONE).
  { assert (HB2 : b0 <= x + (n - 1 - m) * ONE).
    { destruct Hp as ((_ & _ & Y & _) & P1 & P2 & P3). unfold price_num_at, is_u64 in *.
      set (sd := slope_den c) in *. set (pd := price_den c) in *. set (sn := slope_num c) in *.
      set (pn := price_num c) in *. clearbody sd pd sn pn.
      set (K := 2 ^ 31) in *. assert (HK : 1 < K) by (subst K; reflexivity). clearbody K.
      set (q := (n - 1 - m) * ONE) in *.
      replace (sn * pd * (n - 1 - m) * ONE) with (sn * pd * q) in Herr by (subst q; ring). clearbody q.
      assert ((K - 1) * (sn * pd * b0) <= (K - 1) * (sn * pd * (x + q))).
      { set (A := pn * sd * ONE) in *. nia. }
      assert (0 < sn * pd) by nia.
      assert (0 < (K - 1) * (sn * pd)) by nia.
      nia. }
    lia. }
  assert (Hmono : cost2 c (e * ONE) <= cost2 c (x - m * ONE)).
  { apply cost2_mono; [exact Hp |]. unfold ONE in *. lia. }
  pose proof (area_exact c (e * ONE) Hp ltac:(unfold ONE; lia)) as [X _].
  set (ar := area c (e * ONE)) in *.
  assert (Har : ar <= (a - 1) * ONE).
  { destruct Hp as (_ & P1 & P2 & P3). unfold cost_den in Hcost.
    assert (0 < slope_den c * price_den c) by nia.
    assert (price_den c * HALF <= price_den c * ONE) by (unfold HALF, ONE; lia).
    assert (2 * ONE * slope_den c * price_den c * ar <= 2 * ONE * slope_den c * price_den c * ((a - 1) * ONE)) by lia.
    unfold ONE in *. nia. }
  destruct (sale_closed c f n ss a b0 e) as [Hpp HS]; try assumption; [lia |].
  fold ar in Hpp, HS. set (p := (a * ONE - ar) / ONE) in *.
  pose proof (div_bounds (a * ONE - ar) ONE ONE_pos) as D. fold p in D. clearbody p.
  exists (mk_swap_result (ss + n) (a - p) n p 0 0).
  split; [exact HS |]. split; [reflexivity |]. cbn [destination_amount_swapped].
  destruct Hp as (_ & P1 & P2 & P3). unfold cost_den.
  assert (price_den c * HALF < price_den c * ONE) by (unfold HALF, ONE; lia).
  assert (0 < slope_den c * price_den c) by nia.
  assert (2 * ONE * slope_den c * price_den c * ((a - p - 1) * ONE) <= 2 * ONE * slope_den c * price_den c * ar).
  { apply Z.mul_le_mono_nonneg_l; [unfold ONE in *; nia | lia]. }
  lia.
Qed.

(** ** Tokens that cannot be sold *)
(** Price 10^6, slope 10^-6: 10^9 units of collateral buy 786 tokens.  100 of them, worth
    more than 10^8 by the line, cannot be sold, although the reserve covers 999 tokens. *)
Lemma cannot_sell : exists c s r n,
  linear_wf c /\ linear_validate c = Ok tt /\ is_u64 s /\ is_u64 n /\
  curve_swap (LinearPrice c) s 0 1000000 AtoB no_fees = Val r /\
  n <= destination_amount_swapped r /\
  curve_swap (LinearPrice c) n (new_swap_destination_amount r) (new_swap_source_amount r) BtoA no_fees = Non /\
  cost_num c 999 <= cost_den c * new_swap_source_amount r /\
  100000000 * cost_den c <= cost_num c 999 - cost_num c (999 - n).
Proof.
  exists (mk_linear 1 1000000 1000000 1), 1000000000, (mk_swap_result 1000000000 999214 1000000000 786 0 0), 100.
  vm_compute. repeat split; congruence.
Qed.

(** ** Purchases *)
Lemma purchase_is_swap c s a dest f src dst : linear_wf c -> feeless f -> is_u64 s -> is_u64 a -> is_u64 dest ->
  swap_a_to_b c s a dest = Val (src, dst) -> 0 < src <= s -> 0 < dst <= dest ->
  curve_swap (LinearPrice c) s a dest AtoB f = Val (mk_swap_result (a + src) (dest - dst) src dst 0 0).
Proof.
  intros Hc Hf Hn Hss Ha H Hsrc Hdst. unfold is_u64, u64_max in *.
  apply feeless_swap; [exact Hf | unfold is_u64, u64_max; lia |].
  cbn [swap_without_fees source_amount_swapped destination_amount_swapped new_swap_source_amount
       new_swap_destination_amount trade_fee owner_fee].
  split; [| unfold u128_max; repeat split; lia].
  unfold linear_swap. rewrite H. cbn [obind]. unfold map_zero_to_none.
  destruct (Z.eqb_spec src 0); [lia |]. cbn [obind]. destruct (Z.eqb_spec dst 0); [lia |]. reflexivity.
Qed.

(** Below the limits the charge for everything is defined. *)
Lemma cost_limits c x v : linear_pos c -> 0 <= x -> 0 <= v < 2 ^ 66 ->
  cost2 c x <= cost_den c * ONE * ONE * v -> 0 <= x < 2 ^ 126 /\ slope_num c * x * x < 2 ^ 252.
Proof.
  intros Hp Hx Hv H. unfold cost2, cost_den in H.
  destruct Hp as ((_ & Hsd & Hpn & Hpd) & P1 & P2 & P3). unfold is_u64, u64_max in *.
  set (sd := slope_den c) in *. set (pd := price_den c) in *. set (sn := slope_num c) in *.
  set (pn := price_num c) in *. clearbody sd pd sn pn.
  assert (0 <= 2 * sd * pn * x * ONE) by (repeat apply Z.mul_nonneg_nonneg; unfold ONE; lia).
  assert (Hlt : pd * (sn * x * x) <= pd * (2 * sd * ONE * ONE * v)) by lia.
  assert (Hq : sn * x * x <= 2 * sd * ONE * ONE * v) by nia.
  assert (2 * sd * ONE * ONE * v <= 2 * 2 ^ 64 * ONE * ONE * 2 ^ 66).
  { apply Z.mul_le_mono_nonneg; unfold ONE; lia. }
  assert (Hq2 : sn * x * x < 2 ^ 252) by (unfold ONE in *; lia).
  split; [| exact Hq2]. split; [assumption |].
  destruct (Z.lt_ge_cases x (2 ^ 126)) as [| Hge]; [assumption | exfalso].
  assert (2 ^ 126 * 2 ^ 126 <= x * x) by (apply Z.mul_le_mono_nonneg; lia).
  assert (x * x <= sn * x * x) by nia. lia.
Qed.

(** The last tokens are sold if they cost more than half a unit and the offer covers that. *)
Lemma buy_all c f s a dest b0 : linear_wf c -> linear_validate c = Ok tt -> feeless f ->
  is_u64 s -> is_u64 a -> is_u64 dest -> 0 < dest ->
  b_value_with_amt_a_locked c (a * ONE) true = Val b0 ->
  let den := cost_den c * ONE * ONE in
  let total := cost2 c (b0 + dest * ONE) in
  den * (2 * a + 1) + 4 * cost_den c * ONE <= 2 * total ->
  2 * total + price_den c * ONE < den * (2 * (a + s) + 1) ->
  exists r, curve_swap (LinearPrice c) s a dest AtoB f = Val r /\ destination_amount_swapped r = dest.
Proof.
  intros Hc Hv Hf Hs Ha Hd Hd0 Hb den total HL HU. pose proof (validated_pos c Hc Hv) as Hp.
  assert (Hb0 : 0 <= b0 < 2 ^ 190).
  { apply (b_up_bounds c a); try assumption. unfold is_u64, u64_max in Ha; lia. }
  assert (Hx : 0 <= b0 + dest * ONE) by (unfold ONE; lia).
  subst den total. set (x := b0 + dest * ONE) in *.
  pose proof (area_exact c x Hp Hx) as [X1 X2]. pose proof HALF_ONE as HH.
  assert (Hp' := Hp). destruct Hp' as (Hwf & P1 & P2 & P3).
  destruct (cost_limits c x (2 * (a + s) + 1) Hp Hx) as [L1 L2].
  { unfold is_u64, u64_max in *; lia. }
  { assert (0 < price_den c * ONE) by (unfold ONE; lia). unfold is_u64, u64_max in *.
    assert (0 <= cost2 c x).
    { unfold cost2. destruct Hwf as (_ & _ & Y & _). unfold is_u64 in Y.
      assert (0 <= slope_num c * price_den c * x * x) by (repeat apply Z.mul_nonneg_nonneg; lia).
      assert (0 <= 2 * slope_den c * price_num c * x * ONE) by (repeat apply Z.mul_nonneg_nonneg; unfold ONE; lia).
      lia. }
    lia. }
  unfold cost_den in *. set (sd := slope_den c) in *. set (pd := price_den c) in *.
  assert (Hsp : 0 < 2 * ONE * sd * pd) by (unfold ONE; nia).
  assert (HarL : 2 * a * ONE + ONE <= 2 * area c x).
  { assert (2 * ONE * sd * pd * (2 * a * ONE + ONE + 4) < 2 * ONE * sd * pd * (2 * area c x + 4)) by nia.
    assert (2 * a * ONE + ONE + 4 < 2 * area c x + 4); [| lia].
    apply (Z.mul_lt_mono_pos_l (2 * ONE * sd * pd)); assumption. }
  assert (HarU : 2 * area c x < 2 * (a + s) * ONE + ONE).
  { assert (2 * ONE * sd * pd * (2 * area c x) < 2 * ONE * sd * pd * (2 * (a + s) * ONE + ONE)) by nia.
    apply (Z.mul_lt_mono_pos_l (2 * ONE * sd * pd)); assumption. }
  set (cost := (2 * (area c x - a * ONE) + ONE) / (2 * ONE)).
  pose proof (div_bounds (2 * (area c x - a * ONE) + ONE) (2 * ONE) ltac:(unfold ONE; lia)) as D.
  fold cost in D. clearbody cost.
  assert (Hcost : 0 < cost <= s) by (unfold ONE in *; lia).
  exists (mk_swap_result (a + cost) (dest - dest) cost dest 0 0). split; [| reflexivity].
  apply purchase_is_swap; try assumption; [| lia].
  apply swap_a_to_b_val; try assumption. exists b0. split; [exact Hb |]. left.
  split; [reflexivity |]. split; [lia |].
  unfold sold_out_cost. fold x. split; [unfold ONE in *; lia |]. split; [lia |]. auto.
Qed.

(** A purchase of part of the tokens goes through if it gets at least one whole token. *)
Lemma buy_some c f s a dest b0 b1 : linear_wf c -> linear_validate c = Ok tt -> feeless f ->
  is_u64 s -> is_u64 a -> is_u64 dest -> 0 < s ->
  b_value_with_amt_a_locked c (a * ONE) true = Val b0 ->
  b_value_with_amt_a_locked c ((a + s) * ONE) false = Val b1 ->
  cost_den c * ONE * ONE * (a + s + 1) <= cost2 c (b0 + dest * ONE) ->
  b0 + ONE <= b1 < b0 + (dest + 1) * ONE ->
  exists r, curve_swap (LinearPrice c) s a dest AtoB f = Val r /\
    source_amount_swapped r = s /\ destination_amount_swapped r = (b1 - b0) / ONE.
Proof.
  intros Hc Hv Hf Hs Ha Hd Hs0 Hb Hb1 HL HB. pose proof (validated_pos c Hc Hv) as Hp.
  assert (Hb0 : 0 <= b0 < 2 ^ 190).
  { apply (b_up_bounds c a); try assumption. unfold is_u64, u64_max in Ha; lia. }
  pose proof (div_bounds (b1 - b0) ONE ONE_pos) as D.
  set (k := (b1 - b0) / ONE) in *.
  assert (Hk : 0 < k <= dest) by (unfold ONE in *; lia).
  exists (mk_swap_result (a + s) (dest - k) s k 0 0).
  split; [| split; reflexivity]. apply purchase_is_swap; try assumption; [| lia].
  apply swap_a_to_b_val; try assumption. exists b0. split; [exact Hb |]. right.
  split; [reflexivity |]. split.
  - intros cost Hcost Hso. unfold is_u64, u64_max in *.
    destruct (sold_out_exact c a b0 dest cost Hp ltac:(lia) ltac:(lia) Hso) as [X _].
    destruct Hp as (_ & P1 & P2 & P3).
    assert (0 < cost_den c) by (unfold cost_den; nia).
    set (C := cost2 c (b0 + dest * ONE)) in *. clearbody C.
    set (dn := cost_den c) in *. clearbody dn.
    assert (dn * ONE * ONE * (2 * (a + cost) + 1) <= dn * ONE * ONE * (2 * (a + s) + 1)).
    { apply Z.mul_le_mono_nonneg_l; [unfold ONE; lia | lia]. }
    unfold ONE in *. lia.
  - exists b1. split; [exact Hb1 |]. split; [unfold ONE in *; lia |]. split; [reflexivity |].
    unfold is_u64, u64_max, u128_max in *. lia.
Qed.

(** Ten tokens at a price of one ten-thousandth: no offer gets them, nor any of them. *)
Lemma cannot_buy : exists c dest, linear_wf c /\ linear_validate c = Ok tt /\ is_u64 dest /\ 0 < dest /\
  forall s, is_u64 s -> curve_swap (LinearPrice c) s 0 dest AtoB no_fees = Non.
Proof.
  exists (mk_linear 1 1000000 1 10000), 10.
  split; [vm_compute; intuition congruence |]. split; [reflexivity |].
  split; [vm_compute; intuition congruence |]. split; [reflexivity |].
  intros s Hs.
  assert (Hc : linear_wf (mk_linear 1 1000000 1 10000)) by (vm_compute; intuition congruence).
  assert (Hp : linear_pos (mk_linear 1 1000000 1 10000)) by (apply validated_pos; [exact Hc | reflexivity]).
  assert (E : swap_a_to_b (mk_linear 1 1000000 1 10000) s 0 10 = Val (0, 10)).
  { assert (E0 : b_up (mk_linear 1 1000000 1 10000) 0 = Val 0) by (vm_compute; reflexivity).
    assert (U0 : is_u64 0) by (unfold is_u64, u64_max; lia).
    assert (U10 : is_u64 10) by (unfold is_u64, u64_max; lia).
    apply (swap_a_to_b_val _ s 0 10 0 10 Hp U0 Hs U10).
    exists 0. split; [exact E0 |]. left. unfold is_u64 in Hs.
    split; [reflexivity |]. split; [lia |]. vm_compute. repeat split; congruence. }
  unfold curve_swap, trading_fee, owner_trading_fee, calculate_fee.
  cbn [trade_fee_num trade_fee_den owner_trade_fee_num owner_trade_fee_den no_fees Z.eqb orb obind].
  unfold is_u64, u64_max in Hs.
  rewrite add_in_eq by (unfold u128_max; lia). cbn [obind]. rewrite csub_eq by lia. cbn [obind].
  rewrite Z.sub_0_r. cbn [swap_without_fees]. unfold linear_swap. rewrite E. reflexivity.
Qed.
