(** Which offers of collateral a linear pool accepts (C79, C103). *)
From Verif Require Import Ints Tactics DfsPrecise Fees LinearCurve SwapCurve Spec DfsFacts LinearFacts
  SwapFacts LinearExact LinearProps LinearRound LinearBacked RoundSpec BackFacts RedeemFacts.

Lemma slope_least c : linear_wf c -> linear_validate c = Ok tt -> slope_den c <= slope_num c * ONE.
Proof.
  intros Hc Hv. destruct (linear_validate_iff c Hc) as [[V _] _]. apply V in Hv.
  change ONE with (10 ^ 18). apply Hv.
Qed.

(** The position estimated from below exceeds the exact one by at most one token. *)
Lemma down_token c a b : linear_wf c -> linear_validate c = Ok tt -> 0 <= a < 2 ^ 65 ->
  b_down c a = Val b -> cost2 c (Z.max 0 (b - ONE)) <= cost2_den c * a.
Proof.
  intros Hc Hv. apply down_within; [apply RedeemFacts.validated_pos; assumption | exact ONE_pos |].
  apply slope_least; assumption.
Qed.

(** The position estimated from above is worth at least the reserve but for one unit. *)
Lemma up_unit c a b : linear_wf c -> linear_validate c = Ok tt -> 0 <= a < 2 ^ 65 ->
  b_up c a = Val b -> cost2_den c * (a - 1) <= cost2 c (b + 1).
Proof.
  intros Hc0 Hv Ha H. pose proof (slope_least c Hc0 Hv) as HT.
  pose proof (RedeemFacts.validated_pos c Hc0 Hv) as Hc.
  destruct (b_up_root c a b Hc Ha H) as (r & Hb & Zr & Hd & _).
  pose proof (b_up_bounds c a b Hc Ha H) as Hb0.
  pose proof (proj1 (disc_low c a Hc)) as HD. pose proof (proj2 (e_low c Hc)) as HE.
  pose proof (e_val_bounds c Hc) as HE0.
  destruct Hc as (Hwf & H1 & H2 & H3). destruct Hwf as (_ & _ & Hp & _). unfold is_u64 in Hp.
  pose proof ONE_pos as HO. unfold cost2, cost2_den, cost_den, exact_disc in *.
  set (sn := slope_num c) in *. set (sd := slope_den c) in *. set (pn := price_num c) in *.
  set (pd := price_den c) in *. set (D := disc c a) in *.
  assert (HB : (r - e_val c) * sd < sn * (b + 1)).
  { rewrite Hb. unfold b_of_root. fold sd sn. pose proof (div_bounds (Z.max 0 (r - e_val c) * sd) sn H1).
    assert ((r - e_val c) * sd <= Z.max 0 (r - e_val c) * sd) by (apply Z.mul_le_mono_nonneg_r; lia). lia. }
  set (e := e_val c) in *. set (O := ONE) in *. clearbody O e D. clear H Hb.
  set (x := b + 1) in *. assert (Hx : 0 < x) by (unfold x; lia). clearbody x.
  set (X := sn * pd * x + pn * O * sd).
  assert (HY : r * sd * pd <= X).
  { assert (r * sd <= sn * x + e * sd) by lia.
    assert (r * sd * pd <= (sn * x + e * sd) * pd) by (apply Z.mul_le_mono_nonneg_r; lia).
    assert (e * pd * sd <= pn * O * sd) by (apply Z.mul_le_mono_nonneg_r; lia). unfold X. lia. }
  assert (HY2 : (r * sd * pd) * (r * sd * pd) <= X * X).
  { assert (0 <= r * sd * pd) by (repeat apply Z.mul_nonneg_nonneg; lia). apply Z.mul_le_mono_nonneg; lia. }
  assert (HL : D * O * (sd * sd * (pd * pd)) <= (r * sd * pd) * (r * sd * pd)).
  { replace (r * sd * pd * (r * sd * pd)) with (r * r * (sd * sd * (pd * pd))) by ring.
    apply Z.mul_le_mono_nonneg_r; [nia | exact Hd]. }
  assert (HL2 : O * sd * (O * (pn * pn * sd + 2 * sn * a * pd * pd) - 2 * (pd * pd * sd)) <= O * sd * (D * (pd * pd * sd))).
  { apply Z.mul_le_mono_nonneg_l; [nia | exact HD]. }
  assert (HXX : X * X = sn * pd * (sn * pd * x * x + 2 * sd * pn * x * O) + O * sd * (O * (pn * pn * sd)))
    by (unfold X; ring).
  apply (Z.mul_le_mono_pos_l _ _ (sn * pd)); [nia |].
  assert (HS : 2 * O * (sd * sd) * (pd * pd) * sd <= 2 * O * (sd * sd) * (pd * pd) * (sn * O)).
  { apply Z.mul_le_mono_nonneg_l; [nia | exact HT]. }
  replace (sn * pd * (2 * sd * pd * O * O * (a - 1)))
    with (O * sd * (O * (2 * sn * a * pd * pd)) - 2 * O * sd * (pd * pd) * (sn * O)) by ring.
  assert (2 * O * sd * (pd * pd) * sd <= 2 * O * sd * (pd * pd) * (sn * O)).
  { apply Z.mul_le_mono_nonneg_l; [nia | exact HT]. }
  replace (O * sd * (D * (pd * pd * sd))) with (D * O * (sd * sd * (pd * pd))) in HL2 by ring.
  lia.
Qed.

Lemma cost2_super c x y : linear_pos c -> 0 <= x -> 0 <= y -> cost2 c x + cost2 c y <= cost2 c (x + y).
Proof.
  intros (Hwf & P1 & P2 & P3) Hx Hy. unfold cost2.
  assert (0 <= slope_num c * price_den c * x * y) by (repeat apply Z.mul_nonneg_nonneg; lia). nia.
Qed.

(** All but 10^-18 of a token. *)
Lemma cost2_pred c d : linear_pos c -> 0 < d ->
  9 * (cost_num c d * ONE * ONE) <= 10 * cost2 c (d * ONE - 1).
Proof.
  intros (Hwf & P1 & P2 & P3) Hd. destruct Hwf as (_ & _ & Hp & _). unfold is_u64 in Hp.
  unfold cost_num, cost2.
  assert (HO : 10 ^ 18 <= d * ONE) by (change ONE with (10 ^ 18); lia).
  set (D := d * ONE) in *.
  assert (H1 : 9 * (D * D) <= 10 * ((D - 1) * (D - 1))).
  { assert (30 * D <= D * D) by (apply Z.mul_le_mono_nonneg_r; lia). lia. }
  assert (H2 : slope_num c * price_den c * (9 * (D * D)) <= slope_num c * price_den c * (10 * ((D - 1) * (D - 1)))).
  { apply Z.mul_le_mono_nonneg_l; [nia | exact H1]. }
  assert (H3 : 2 * slope_den c * price_num c * ONE * (9 * D) <= 2 * slope_den c * price_num c * ONE * (10 * (D - 1))).
  { apply Z.mul_le_mono_nonneg_l; [repeat apply Z.mul_nonneg_nonneg; unfold ONE; lia | lia]. }
  replace (9 * ((slope_num c * price_den c * d * d + 2 * slope_den c * price_num c * d) * ONE * ONE))
    with (slope_num c * price_den c * (9 * (D * D)) + 2 * slope_den c * price_num c * ONE * (9 * D))
    by (unfold D; ring).
  lia.
Qed.

(** If the remaining tokens cost two units, the reserve never covers them. *)
Lemma rest_costs c a b dest : linear_wf c -> linear_validate c = Ok tt -> is_u64 a -> 0 < dest ->
  b_up c a = Val b -> 2 * cost_den c <= cost_num c dest -> a * ONE <= area c (b + dest * ONE).
Proof.
  intros Hc Hv Ha Hd Hb Hcost. pose proof (RedeemFacts.validated_pos c Hc Hv) as Hp.
  unfold is_u64, u64_max in Ha.
  pose proof (up_unit c a b Hc Hv ltac:(lia) Hb) as H1.
  pose proof (b_up_bounds c a b Hp ltac:(lia) Hb) as Hb0.
  pose proof (cost2_pred c dest Hp Hd) as H2.
  assert (HO : ONE <= dest * ONE) by (unfold ONE; lia). pose proof ONE_pos as HO1.
  pose proof (cost2_super c (b + 1) (dest * ONE - 1) Hp ltac:(lia) ltac:(lia)) as H3.
  replace (b + 1 + (dest * ONE - 1)) with (b + dest * ONE) in H3 by ring.
  pose proof (area_exact c (b + dest * ONE) Hp ltac:(lia)) as [_ X].
  pose proof (cost2_den_pos c Hp) as HR.
  destruct Hp as (_ & P1 & P2 & P3). unfold cost2_den in *. unfold cost_den in *.
  set (sd := slope_den c) in *. set (pd := price_den c) in *.
  set (C := cost2 c (b + dest * ONE)) in *. set (ar := area c (b + dest * ONE)) in *. clearbody C ar.
  assert (Hq : 2 * sd * pd * ONE * ONE * 2 <= cost_num c dest * ONE * ONE).
  { replace (2 * sd * pd * ONE * ONE * 2) with (2 * (2 * sd * pd) * (ONE * ONE)) by ring.
    replace (cost_num c dest * ONE * ONE) with (cost_num c dest * (ONE * ONE)) by ring.
    apply Z.mul_le_mono_nonneg_r; [unfold ONE; lia | exact Hcost]. }
  assert (HC : 10 * (2 * sd * pd * ONE * ONE) * (a - 1) + 18 * (2 * sd * pd * ONE * ONE) <= 10 * C) by lia.
  assert (HU : 0 < 2 * ONE * sd * pd) by nia.
  assert (Hlt : 2 * ONE * sd * pd * (10 * (a - 1) * ONE + 18 * ONE) < 2 * ONE * sd * pd * (10 * (ar + 2))) by lia.
  apply Z.mul_lt_mono_pos_l in Hlt; [| exact HU]. unfold ONE in *. lia.
Qed.

(** The charge for everything that remains, if the program can compute one. *)
Lemma charge_cases c a b dest s : linear_pos c -> is_u64 a -> is_u64 s -> 0 <= b -> 0 <= dest ->
  (exists cost, 0 <= cost <= s /\ sold_out_cost c a b dest cost) \/
  (forall cost, 0 <= cost <= s -> ~ sold_out_cost c a b dest cost).
Proof.
  intros Hp Ha Hs Hb Hd. set (x := b + dest * ONE).
  set (cost := (2 * (area c x - a * ONE) + ONE) / (2 * ONE)).
  pose proof (div_bounds (2 * (area c x - a * ONE) + ONE) (2 * ONE) ltac:(unfold ONE; lia)) as D. fold cost in D.
  assert (Hx : 0 <= x) by (unfold x, ONE; lia).
  destruct (Z.lt_ge_cases (area c x) (a * ONE)) as [L | L].
  { right. intros k _ (H & _). fold x in H. lia. }
  destruct (Z.lt_ge_cases x (2 ^ 126)) as [B | B].
  2: { right. intros k _ (_ & _ & H & _). fold x in H. lia. }
  destruct (Z.lt_ge_cases (slope_num c * x * x) (2 ^ 252)) as [B2 | B2].
  2: { right. intros k _ (_ & _ & _ & H). fold x in H. lia. }
  destruct (Z.le_gt_cases cost s) as [C | C].
  - left. exists cost. split; [unfold ONE in *; lia |]. unfold sold_out_cost. fold x.
    split; [exact L |]. split; [unfold ONE in *; lia |]. split; [lia | exact B2].
  - right. intros k Hk (_ & H & _). fold x in H. unfold ONE in *. lia.
Qed.

(** What an offer gets never exceeds what is left, unless the reserve is worth more than
    all that is left. *)
Lemma fits c a b0 b1 dest s : linear_wf c -> linear_validate c = Ok tt -> is_u64 a -> is_u64 s -> is_u64 dest ->
  b_up c a = Val b0 -> b_down c (a + s) = Val b1 -> a * ONE <= area c (b0 + dest * ONE) ->
  (forall cost, 0 <= cost <= s -> ~ sold_out_cost c a b0 dest cost) -> b1 < b0 + (dest + 1) * ONE.
Proof.
  intros Hc Hv Ha Hs Hd Hb0 Hb1 Hlow Hno. pose proof (RedeemFacts.validated_pos c Hc Hv) as Hp.
  unfold is_u64, u64_max in Ha, Hs, Hd.
  pose proof (b_up_bounds c a b0 Hp ltac:(lia) Hb0) as Bb0.
  pose proof (down_token c (a + s) b1 Hc Hv ltac:(lia) Hb1) as H1.
  destruct (Z.lt_ge_cases b1 (b0 + (dest + 1) * ONE)) as [| G]; [assumption | exfalso].
  set (x := b0 + dest * ONE) in *. assert (Hx : 0 <= x) by (unfold x, ONE; lia).
  assert (Hle : cost2 c x <= cost2_den c * (a + s)).
  { apply Z.le_trans with (cost2 c (Z.max 0 (b1 - ONE))); [| exact H1].
    apply cost2_mono; [exact Hp |]. unfold x, ONE in *. lia. }
  destruct (cost_limits c x (a + s) Hp Hx ltac:(lia) Hle) as [B1 B2].
  pose proof (area_exact c x Hp Hx) as [X _]. pose proof HALF_ONE as HH. pose proof ONE_pos as HO.
  assert (Har : area c x <= (a + s) * ONE).
  { destruct Hp as (_ & P1 & P2 & P3). unfold cost2_den, cost_den in Hle.
    set (sd := slope_den c) in *. set (pd := price_den c) in *.
    assert (HU : 0 < 2 * ONE * sd * pd) by nia.
    assert (pd * HALF <= 2 * ONE * sd * pd * 1 - 1).
    { assert (pd * HALF <= sd * (pd * HALF)) by (assert (0 <= pd * HALF) by nia; nia).
      assert (0 < sd * (pd * HALF)) by (unfold HALF in *; nia). replace ONE with (2 * HALF) by lia. lia. }
    assert (2 * ONE * sd * pd * area c x < 2 * ONE * sd * pd * ((a + s) * ONE + 1)) by lia.
    assert (area c x < (a + s) * ONE + 1); [| lia].
    apply (Z.mul_lt_mono_pos_l (2 * ONE * sd * pd)); assumption. }
  set (cost := (2 * (area c x - a * ONE) + ONE) / (2 * ONE)).
  pose proof (div_bounds (2 * (area c x - a * ONE) + ONE) (2 * ONE) ltac:(unfold ONE; lia)) as D. fold cost in D.
  clearbody cost.
  apply (Hno cost); [unfold ONE in *; lia |]. unfold sold_out_cost. fold x.
  split; [exact Hlow |]. split; [unfold ONE in *; lia |]. split; [lia | exact B2].
Qed.

(** Larger offers are accepted too. *)
Lemma larger_offer c f s s' a dest b0 r : linear_wf c -> linear_validate c = Ok tt -> feeless f ->
  is_u64 s -> is_u64 s' -> is_u64 a -> is_u64 dest -> s <= s' ->
  b_up c a = Val b0 -> a * ONE <= area c (b0 + dest * ONE) ->
  curve_swap (LinearPrice c) s a dest AtoB f = Val r ->
  exists r', curve_swap (LinearPrice c) s' a dest AtoB f = Val r'.
Proof.
  intros Hc Hv Hf Hs Hs' Ha Hd Hle Hb0 Hlow H. pose proof (RedeemFacts.validated_pos c Hc Hv) as Hp.
  apply feeless_swap in H; try assumption. destruct H as (H & _ & _ & HD & _).
  cbn [swap_without_fees] in H. apply linear_swap_a_to_b in H; try assumption.
  destruct H as (_ & Hsrc & Hdst & b & Hb & H). rewrite Hb0 in Hb. injection Hb as <-.
  assert (Bb0 : 0 <= b0 < 2 ^ 190) by (apply (b_up_bounds c a); try assumption; unfold is_u64, u64_max in Ha; lia).
  assert (Hd0 : 0 < dest) by (unfold is_u64 in *; lia).
  destruct H as [(E & Hc1 & Hso) | (E & Hno & b1 & Hb1 & Hlt & E2 & _)].
  - exists (mk_swap_result (a + source_amount_swapped r) (dest - dest) (source_amount_swapped r) dest 0 0).
    apply purchase_is_swap; try assumption; try lia.
    apply swap_a_to_b_val; try assumption. exists b0. split; [exact Hb0 |]. left.
    split; [reflexivity |]. split; [lia | exact Hso].
  - destruct (charge_cases c a b0 dest s' Hp Ha Hs' ltac:(lia) ltac:(lia)) as [(k & Hk & Hso) | Hno'].
    + assert (0 < k).
      { destruct (Z.lt_ge_cases 0 k); [assumption | exfalso]. apply (Hno k); [unfold is_u64 in *; lia | exact Hso]. }
      exists (mk_swap_result (a + k) (dest - dest) k dest 0 0).
      apply purchase_is_swap; try assumption; try lia.
      apply swap_a_to_b_val; try assumption. exists b0. split; [exact Hb0 |]. left.
      split; [reflexivity |]. split; [lia | exact Hso].
    + unfold is_u64, u64_max in *.
      destruct (b_value_down_total c (a + s') Hp ltac:(lia)) as [b1' Hb1'].
      pose proof (b_value_mono c (a + s) (a + s') false b1 b1' Hp ltac:(lia) ltac:(lia) ltac:(lia) Hb1 Hb1') as M.
      pose proof (fits c a b0 b1' dest s' Hc Hv Ha Hs' Hd Hb0 Hb1' Hlow Hno') as F.
      pose proof (div_bounds (b1' - b0) ONE ONE_pos) as D.
      pose proof (div_bounds (b1 - b0) ONE ONE_pos) as D1.
      set (k := (b1' - b0) / ONE) in *.
      assert (Hk : 0 < k <= dest) by (unfold ONE in *; lia).
      exists (mk_swap_result (a + s') (dest - k) s' k 0 0).
      apply purchase_is_swap; try assumption; try lia.
      apply swap_a_to_b_val; try assumption. exists b0. split; [exact Hb0 |]. right.
      split; [reflexivity |]. split; [exact Hno' |]. exists b1'. split; [exact Hb1' |].
      split; [unfold ONE in *; lia |]. split; [reflexivity |]. unfold u128_max. lia.
Qed.

Lemma accept_more c f s s' a dest r : linear_wf c -> linear_validate c = Ok tt -> feeless f ->
  is_u64 s -> is_u64 s' -> is_u64 a -> is_u64 dest -> s <= s' -> 2 * cost_den c <= cost_num c dest ->
  curve_swap (LinearPrice c) s a dest AtoB f = Val r ->
  exists r', curve_swap (LinearPrice c) s' a dest AtoB f = Val r'.
Proof.
  intros Hc Hv Hf Hs Hs' Ha Hd Hle Hcost H. pose proof (RedeemFacts.validated_pos c Hc Hv) as Hp.
  assert (X : exists b0, b_up c a = Val b0 /\ 0 < dest).
  { pose proof H as H0. apply feeless_swap in H0; try assumption. destruct H0 as (H0 & _ & _ & HD & _).
    cbn [swap_without_fees] in H0. apply linear_swap_a_to_b in H0; try assumption.
    destruct H0 as (_ & _ & Hdst & b & Hb & _). exists b. split; [exact Hb | lia]. }
  destruct X as (b0 & Hb0 & Hd0).
  apply (larger_offer c f s s' a dest b0 r); try assumption.
  apply rest_costs; assumption.
Qed.

(** Accepted offers are those from a smallest one on. *)
Lemma smallest_offer c f a dest : linear_wf c -> linear_validate c = Ok tt -> feeless f ->
  is_u64 a -> is_u64 dest -> 2 * cost_den c <= cost_num c dest ->
  exists t, 0 < t <= 2 ^ 64 /\ forall s, is_u64 s ->
    ((exists r, curve_swap (LinearPrice c) s a dest AtoB f = Val r) <-> t <= s).
Proof.
  intros Hc Hv Hf Ha Hd Hcost.
  set (Q := fun s => ~ exists r, curve_swap (LinearPrice c) s a dest AtoB f = Val r).
  assert (Hdec : forall s, Q s \/ ~ Q s).
  { intros s. unfold Q. destruct (curve_swap (LinearPrice c) s a dest AtoB f) as [r | |];
      [right; intros X; apply X; eauto | left; intros [r X]; discriminate | left; intros [r X]; discriminate]. }
  assert (Hok : forall s, ~ Q s -> exists r, curve_swap (LinearPrice c) s a dest AtoB f = Val r).
  { intros s. unfold Q. destruct (curve_swap (LinearPrice c) s a dest AtoB f) as [r | |]; [eauto | |];
      intros X; exfalso; apply X; intros [r Y]; discriminate. }
  assert (H0 : Q 0).
  { intros [r H]. assert (U : is_u64 0) by (unfold is_u64, u64_max; lia).
    apply feeless_swap in H; try assumption. destruct H as (H & _).
    cbn [swap_without_fees] in H. apply linear_swap_a_to_b in H; try assumption.
    destruct H as (_ & Hsrc & _ & b & _ & [(_ & X & _) | (X & _)]); lia. }
  destruct (Hdec u64_max) as [Hn | Hy].
  - exists (2 ^ 64). split; [lia |]. intros s Hs. assert (Hs' := Hs). unfold is_u64, u64_max in Hs'. split; [| lia].
    intros [r H]. exfalso. apply Hn.
    apply (accept_more c f s u64_max a dest r); try assumption; unfold is_u64, u64_max; lia.
  - destruct (last_below Q u64_max Hdec ltac:(unfold u64_max; lia) H0 Hy) as (x & Hx & Hq & Hp).
    exists (x + 1). split; [unfold u64_max in *; lia |]. intros s Hs. split.
    + intros [r H]. destruct (Z.le_gt_cases (x + 1) s) as [| G]; [assumption | exfalso]. apply Hq.
      apply (accept_more c f s x a dest r); try assumption; [unfold is_u64 in *; lia | lia].
    + intros Hle. destruct (Hok _ Hp) as [r H].
      apply (accept_more c f (x + 1) s a dest r); try assumption. unfold is_u64 in *. lia.
Qed.

(** With 14454 tokens left that cost less than a unit, an offer of 1 gets them all and
    an offer of 2 nothing. *)
Lemma more_fails : exists c a dest s s' r,
  linear_wf c /\ linear_validate c = Ok tt /\ is_u64 a /\ is_u64 dest /\ is_u64 s /\ is_u64 s' /\ s <= s' /\
  curve_swap (LinearPrice c) s a dest AtoB no_fees = Val r /\
  curve_swap (LinearPrice c) s' a dest AtoB no_fees = Non.
Proof.
  exists (mk_linear 19 18000000000000000000 1 1053000000), 1185325127, 14454, 1, 2,
    (mk_swap_result 1185325128 0 1 14454 0 0).
  vm_compute. repeat split; congruence.
Qed.

(** ** When purchases go through (C79) *)

(** With more than the offer left to pay, the reserve does not cover what is left. *)
Lemma rest_above c a b0 dest s : linear_pos c -> 0 <= b0 -> 0 <= dest -> 0 <= s ->
  let den := cost_den c * ONE * ONE in
  den * (2 * (a + s) + 1) + 4 * cost_den c * ONE <= 2 * cost2 c (b0 + dest * ONE) ->
  2 * (a + s) * ONE + ONE <= 2 * area c (b0 + dest * ONE).
Proof.
  intros Hp Hb Hd Hs den H. subst den. assert (Hx : 0 <= b0 + dest * ONE) by (unfold ONE; lia).
  pose proof (area_exact c (b0 + dest * ONE) Hp Hx) as [_ X].
  destruct Hp as (_ & P1 & P2 & P3). unfold cost_den in *.
  set (sd := slope_den c) in *. set (pd := price_den c) in *.
  set (C := cost2 c (b0 + dest * ONE)) in *. set (ar := area c (b0 + dest * ONE)) in *. clearbody C ar.
  assert (HU : 0 < 2 * ONE * sd * pd) by (unfold ONE; nia).
  assert (Hlt : 2 * ONE * sd * pd * (2 * (a + s) * ONE + ONE + 4) < 2 * ONE * sd * pd * (2 * ar + 4)) by nia.
  apply Z.mul_lt_mono_pos_l in Hlt; [lia | exact HU].
Qed.

Lemma some_bought c f s a dest b0 b1 : linear_wf c -> linear_validate c = Ok tt -> feeless f ->
  is_u64 s -> is_u64 a -> is_u64 dest ->
  b_up c a = Val b0 -> b_down c (a + s) = Val b1 -> b0 + ONE <= b1 -> 0 < s ->
  a * ONE <= area c (b0 + dest * ONE) ->
  (forall cost, 0 <= cost <= s -> ~ sold_out_cost c a b0 dest cost) ->
  exists r, curve_swap (LinearPrice c) s a dest AtoB f = Val r /\
    source_amount_swapped r = s /\ destination_amount_swapped r = (b1 - b0) / ONE.
Proof.
  intros Hc Hv Hf Hs Ha Hd Hb0 Hb1 HB Hs0 Hlow Hno. pose proof (RedeemFacts.validated_pos c Hc Hv) as Hp.
  pose proof (fits c a b0 b1 dest s Hc Hv Ha Hs Hd Hb0 Hb1 Hlow Hno) as F.
  pose proof (div_bounds (b1 - b0) ONE ONE_pos) as D. set (k := (b1 - b0) / ONE) in *.
  assert (Hk : 0 < k <= dest) by (unfold ONE in *; lia).
  exists (mk_swap_result (a + s) (dest - k) s k 0 0).
  split; [| split; reflexivity]. apply purchase_is_swap; try assumption; [| lia].
  apply swap_a_to_b_val; try assumption. exists b0. split; [exact Hb0 |]. right.
  split; [reflexivity |]. split; [exact Hno |]. exists b1. split; [exact Hb1 |].
  split; [unfold ONE in *; lia |]. split; [reflexivity |]. unfold is_u64, u64_max, u128_max in *. lia.
Qed.

Lemma buy_part c f s a dest b0 b1 : linear_wf c -> linear_validate c = Ok tt -> feeless f ->
  is_u64 s -> is_u64 a -> is_u64 dest -> 0 < s ->
  b_value_with_amt_a_locked c (a * ONE) true = Val b0 ->
  b_value_with_amt_a_locked c ((a + s) * ONE) false = Val b1 ->
  cost_den c * ONE * ONE * (2 * (a + s) + 1) + 4 * cost_den c * ONE <= 2 * cost2 c (b0 + dest * ONE) ->
  b0 + ONE <= b1 ->
  exists r, curve_swap (LinearPrice c) s a dest AtoB f = Val r /\
    source_amount_swapped r = s /\ destination_amount_swapped r = (b1 - b0) / ONE.
Proof.
  intros Hc Hv Hf Hs Ha Hd Hs0 Hb Hb1 HL HB. pose proof (RedeemFacts.validated_pos c Hc Hv) as Hp.
  assert (Hb0 : 0 <= b0 < 2 ^ 190).
  { apply (b_up_bounds c a); try assumption. unfold is_u64, u64_max in Ha; lia. }
  pose proof Ha as Ha'. pose proof Hs as Hs'. pose proof Hd as Hd'. unfold is_u64, u64_max in Ha', Hs', Hd'.
  pose proof (rest_above c a b0 dest s Hp ltac:(lia) ltac:(lia) ltac:(lia) HL) as R.
  apply some_bought; try assumption; [unfold ONE in *; lia |].
  intros cost Hcost (_ & Hso & _). unfold ONE in *. lia.
Qed.

(** Whether all or some of the tokens: an offer that moves the estimated position by a
    token goes through if what remains costs more than half a unit. *)
Lemma buy_any c f s a dest b0 b1 : linear_wf c -> linear_validate c = Ok tt -> feeless f ->
  is_u64 s -> is_u64 a -> is_u64 dest -> 0 < s -> 0 < dest ->
  b_value_with_amt_a_locked c (a * ONE) true = Val b0 ->
  b_value_with_amt_a_locked c ((a + s) * ONE) false = Val b1 ->
  cost_den c * ONE * ONE * (2 * a + 1) + 4 * cost_den c * ONE <= 2 * cost2 c (b0 + dest * ONE) ->
  b0 + ONE <= b1 ->
  exists r, curve_swap (LinearPrice c) s a dest AtoB f = Val r.
Proof.
  intros Hc Hv Hf Hs Ha Hd Hs0 Hd0 Hb Hb1 HL HB. pose proof (RedeemFacts.validated_pos c Hc Hv) as Hp.
  assert (Hb0 : 0 <= b0 < 2 ^ 190).
  { apply (b_up_bounds c a); try assumption. unfold is_u64, u64_max in Ha; lia. }
  replace (2 * a + 1) with (2 * (a + 0) + 1) in HL by ring.
  pose proof (rest_above c a b0 dest 0 Hp ltac:(lia) ltac:(lia) ltac:(lia) HL) as R.
  replace (a + 0) with a in R by ring.
  destruct (charge_cases c a b0 dest s Hp Ha Hs ltac:(lia) ltac:(lia)) as [(k & Hk & Hso) | Hno].
  - exists (mk_swap_result (a + k) (dest - dest) k dest 0 0).
    assert (0 < k) by (destruct Hso as (_ & Hso & _); unfold ONE in *; lia).
    apply purchase_is_swap; try assumption; try lia.
    apply swap_a_to_b_val; try assumption. exists b0. split; [exact Hb |]. left.
    split; [reflexivity |]. split; [lia | exact Hso].
  - destruct (some_bought c f s a dest b0 b1) as (r & Hr & _); try assumption; [unfold ONE in *; lia |].
    exists r. exact Hr.
Qed.

(** No other offer goes through. *)
Lemma buys_only c f s a dest b0 b1 r : linear_wf c -> feeless f -> is_u64 s -> is_u64 a -> is_u64 dest ->
  b_value_with_amt_a_locked c (a * ONE) true = Val b0 ->
  b_value_with_amt_a_locked c ((a + s) * ONE) false = Val b1 ->
  curve_swap (LinearPrice c) s a dest AtoB f = Val r ->
  let den := cost_den c * ONE * ONE in
  let total := cost2 c (b0 + dest * ONE) in
  (b0 + ONE <= b1 /\ destination_amount_swapped r = (b1 - b0) / ONE) \/
  (destination_amount_swapped r = dest /\
   den * (2 * a + 1) <= 2 * total + price_den c * ONE /\
   2 * total < den * (2 * (a + s) + 1) + 4 * cost_den c * ONE).
Proof.
  intros Hc Hf Hs Ha Hd Hb0 Hb1 H. cbv zeta.
  apply feeless_swap in H; try assumption. destruct H as (H & _ & _ & HD & _).
  cbn [swap_without_fees] in H. apply linear_swap_a_to_b in H; try assumption.
  destruct H as (Hp & Hsrc & Hdst & b & Hb & H). unfold b_up in Hb. rewrite Hb0 in Hb. injection Hb as <-.
  assert (Bb0 : 0 <= b0 < 2 ^ 190) by (apply (b_up_bounds c a); try assumption; unfold is_u64, u64_max in Ha; lia).
  destruct H as [(E & Hc1 & Hso) | (E & Hno & b1' & Hb1' & Hlt & E2 & _)].
  - right. split; [exact E |].
    assert (Hd0 : 0 <= dest) by lia.
    destruct (sold_out_exact c a b0 dest _ Hp ltac:(lia) Hd0 Hso) as [X1 X2].
    destruct Hp as (_ & P1 & P2 & P3).
    assert (HN : 0 < cost_den c) by (unfold cost_den; nia).
    set (C := cost2 c (b0 + dest * ONE)) in *. clearbody C. set (dn := cost_den c) in *. clearbody dn.
    set (k := source_amount_swapped r) in *. clearbody k.
    assert (dn * ONE * ONE * (2 * a + 1) <= dn * ONE * ONE * (2 * (a + k) - 1)).
    { apply Z.mul_le_mono_nonneg_l; [unfold ONE; lia | lia]. }
    assert (dn * ONE * ONE * (2 * (a + k) + 1) <= dn * ONE * ONE * (2 * (a + s) + 1)).
    { apply Z.mul_le_mono_nonneg_l; [unfold ONE; lia | lia]. }
    lia.
  - left. unfold b_down in Hb1'. rewrite Hb1 in Hb1'. injection Hb1' as <-.
    pose proof (div_bounds (b1 - b0) ONE ONE_pos) as D. split; [| exact E2].
    rewrite <- E2 in D. unfold ONE in *. lia.
Qed.

(** ** An example from the tests *)
Lemma taki_offers s : is_u64 s ->
  let q := curve_swap (LinearPrice (mk_linear 37 1400000000000000000 7 2)) s 0 1285000000000000 AtoB no_fees in
  ((exists r, q = Val r) <-> 132432433 <= s) /\
  (132432433 <= s <= 264864864 -> q = Val (mk_swap_result s (1285000000000000 - 37837837) s 37837837 0 0)).
Proof.
  intros Hs. cbv zeta. set (c := mk_linear 37 1400000000000000000 7 2). set (d := 1285000000000000).
  assert (Hc : linear_wf c) by (vm_compute; intuition congruence).
  assert (Hv : linear_validate c = Ok tt) by reflexivity.
  assert (Hf : feeless no_fees) by (split; reflexivity).
  assert (U0 : is_u64 0) by (unfold is_u64, u64_max; lia).
  assert (Ud : is_u64 d) by (unfold is_u64, u64_max, d; lia).
  assert (Hcost : 2 * cost_den c <= cost_num c d) by (vm_compute; congruence).
  assert (U1 : is_u64 132432432) by (unfold is_u64, u64_max; lia).
  assert (U2 : is_u64 132432433) by (unfold is_u64, u64_max; lia).
  assert (U3 : is_u64 264864864) by (unfold is_u64, u64_max; lia).
  assert (E1 : curve_swap (LinearPrice c) 132432432 0 d AtoB no_fees = Non) by (vm_compute; reflexivity).
  assert (E2 : curve_swap (LinearPrice c) 132432433 0 d AtoB no_fees =
    Val (mk_swap_result 132432433 (d - 37837837) 132432433 37837837 0 0)) by (vm_compute; reflexivity).
  assert (E3 : curve_swap (LinearPrice c) 264864864 0 d AtoB no_fees =
    Val (mk_swap_result 264864864 (d - 37837837) 264864864 37837837 0 0)) by (vm_compute; reflexivity).
  assert (A : 132432433 <= s -> exists r, curve_swap (LinearPrice c) s 0 d AtoB no_fees = Val r).
  { intros L. eapply (accept_more c no_fees 132432433 s 0 d _); try eassumption. }
  split; [split; [| exact A] |].
  - intros [r H]. destruct (Z.le_gt_cases 132432433 s) as [| G]; [assumption | exfalso].
    destruct (accept_more c no_fees s 132432432 0 d r Hc Hv Hf Hs U1 U0 Ud ltac:(lia) Hcost H) as [r' X].
    rewrite E1 in X. discriminate.
  - intros [L1 L2]. destruct (A L1) as [r H].
    destruct (buy_mono c no_fees 0 d _ _ _ _ Hc Hf U0 Ud U2 Hs L1 E2 H) as [M1 _].
    destruct (buy_mono c no_fees 0 d _ _ _ _ Hc Hf U0 Ud Hs U3 L2 H E3) as [M2 _].
    cbn [destination_amount_swapped] in M1, M2. rewrite H. f_equal.
    assert (Hr := H). apply feeless_swap in H; try assumption.
    destruct H as (H & _ & _ & HD & N1 & N2 & F1 & F2).
    cbn [swap_without_fees] in H. apply linear_swap_a_to_b in H; try assumption.
    destruct H as (_ & _ & _ & b & _ & H).
    assert (Es : source_amount_swapped r = s).
    { destruct H as [(E & _) | (E & _)]; [exfalso; unfold d in E; lia | exact E]. }
    clear H E1 E2 E3 A Hcost HD Hr. destruct r as [x1 x2 x3 x4 x5 x6].
    cbn [source_amount_swapped destination_amount_swapped new_swap_source_amount
         new_swap_destination_amount trade_fee owner_fee] in *. subst. f_equal; lia.
Qed.
