(** The tests of one-sided deposits of the constant-product and the offset curve (C93, C94). *)
From Verif Require Import Ints Tactics SplMath ConstantProduct OffsetCurve LinearCurve SwapCurve Spec CurveFacts DfsFacts
  QuoteSpec QuoteFacts QuoteCurves RootFacts RandomTests TestSpec TestFacts TestProduct TestConversions.

(** [g], in units of 10^-12, is the root of [1 + source / reserve] up to two units. *)
Definition grows (source reserve g : Z) : Prop :=
  P <= g /\ (g - 2) * (g - 2) * reserve <= P * P * (reserve + source) <= (g + 2) * (g + 2) * reserve.

Lemma root_grows source y g : 0 <= source -> 0 < y -> root12 (P + source * P / y) g -> P <= g -> grows source y g.
Proof.
  intros Hs Hy (G1 & G2) GP. split; [exact GP |].
  change (10 ^ 12) with 1000000000000 in *. change (5 * 10 ^ 11) with 500000000000 in *.
  pose proof (div_bounds (source * 1000000000000) y Hy) as D.
  assert (0 <= source * 1000000000000 / y) by (apply Z.div_pos; lia).
  set (z := source * 1000000000000 / y) in *. clearbody z.
  set (N := (1000000000000 + z) * 1000000000000 + 500000000000) in *.
  pose proof (Z.sqrt_spec N ltac:(unfold N; lia)) as (S1 & S2). cbv zeta in S1, S2.
  pose proof (Z.sqrt_nonneg N) as S0. set (q := Z.sqrt N) in *. clearbody q.
  assert (Q1 : (g - 1) * (g - 1) <= q * q) by (apply Z.mul_le_mono_nonneg; lia).
  assert (Q2 : Z.succ q * Z.succ q <= (g + 1) * (g + 1)) by (apply Z.mul_le_mono_nonneg; lia).
  split.
  - assert (L : (g - 2) * (g - 2) <= N - 1000000000000) by lia.
    apply Z.le_trans with ((N - 1000000000000) * y); [apply Z.mul_le_mono_nonneg_r; lia |]. unfold N. lia.
  - assert (L : N + 1000000000000 <= (g + 2) * (g + 2)) by lia.
    apply Z.le_trans with ((N + 1000000000000) * y); [| apply Z.mul_le_mono_nonneg_r; lia]. unfold N. lia.
Qed.

Lemma deposit_wide source a b supply d : is_u64 source -> 0 < reserve_of d a b <= 2 ^ 70 -> 0 <= supply <= 2 ^ 100 ->
  exists g, grows source (reserve_of d a b) g /\
    (supply * (g - P) <= 2 ^ 140 ->
     calc_deposit_single ConstantProduct source a b supply d = Val (supply * (g - P) / P)).
Proof.
  intros Hs Hy Hn. unfold is_u64 in *. cbn [calc_deposit_single]. unfold cprod_deposit_single.
  change (match d with AtoB => a | BtoA => b end) with (reserve_of d a b).
  set (y := reserve_of d a b) in *. clearbody y.
  assert (HO : SPL_ONE = 1000000000000) by reflexivity.
  assert (H200 : 2 ^ 200 = 1606938044258990275541962092341162602522202993782792835301376) by reflexivity.
  assert (H132 : 2 ^ 132 = 5444517870735015415413993718908291383296) by reflexivity.
  change (2 ^ 70) with 1180591620717411303424 in Hy. change (2 ^ 100) with 1267650600228229401496703205376 in Hn.
  rewrite spl_new_eq by (consts; lia). cbn [obind]. rewrite spl_new_eq by (consts; lia). cbn [obind].
  rewrite ratio12 by (consts; lia). cbn [obind].
  change (spl_new 1) with (Val SPL_ONE). cbn [obind].
  assert (Hq : 0 <= source * SPL_ONE / y <= source * SPL_ONE).
  { split; [apply Z.div_pos; lia | apply Z.div_le_upper_bound; nia]. }
  unfold spl_add. rewrite add_in_eq by (consts; lia). cbn [obind].
  change (10 ^ 12) with SPL_ONE.
  set (x := SPL_ONE + source * SPL_ONE / y) in *.
  destruct (spl_sqrt_exact x) as [g [Eg Hg]]; [rewrite pow170; consts; unfold x; lia |].
  rewrite Eg. cbn [obind].
  assert (Hg1 : SPL_ONE <= g).
  { destruct Hg as [Hg _]. refine (Z.le_trans _ _ _ _ Hg). apply Z.sqrt_le_square; [unfold x; lia | lia |].
    change (10 ^ 12) with SPL_ONE. change (5 * 10 ^ 11) with 500000000000. unfold x. lia. }
  exists g. split; [apply root_grows; [lia | lia | exact Hg | exact Hg1] |].
  intros Hsm. unfold spl_sub. rewrite csub_eq by assumption. cbn [obind].
  rewrite spl_new_eq by (consts; lia). cbn [obind].
  assert (0 <= supply * (g - SPL_ONE)) by (apply Z.mul_nonneg_nonneg; lia).
  rewrite RootFacts.spl_mul_whole by (change (2 ^ 140) with 1393796574908163946345982392040522594123776 in Hsm; lia). cbn [obind].
  rewrite round_precise_eq by lia. reflexivity.
Qed.

(** How far the root is above one, at least. *)
Lemma root_rises S X g : 1 <= X <= 10 ^ 5 * S -> grows S X g -> g <= 300000 * (g - P).
Proof.
  intros HX (G & _ & B). change (10 ^ 12) with 1000000000000 in *. change (10 ^ 5) with 100000 in *.
  destruct (Z.le_gt_cases g (300000 * (g - 1000000000000))) as [| C]; [assumption | exfalso].
  assert (g <= 1000003334000) by lia.
  assert ((g + 2) * (g + 2) <= 1000003334002 * 1000003334002) by (apply Z.mul_le_mono_nonneg; lia).
  assert ((g + 2) * (g + 2) * X <= 1000003334002 * 1000003334002 * X) by (apply Z.mul_le_mono_nonneg_r; lia).
  lia.
Qed.

Lemma root_rises_more S X X1 g : 10 ^ 4 <= S -> 1 <= X <= 10 ^ 5 * S -> X + S <= 4 * X1 -> grows S X g ->
  900 * g <= X1 * (g - P).
Proof.
  intros HS HX HT HG. pose proof (root_rises S X g HX HG) as R. destruct HG as (G & A & B).
  change (10 ^ 12) with 1000000000000 in *. change (10 ^ 5) with 100000 in *. change (10 ^ 4) with 10000 in *.
  set (D := g - 1000000000000) in *. assert (HD : 0 < D) by lia.
  assert (B' : 100 * (1000000000000 * 1000000000000 * S) <= 201 * (D * g) * X).
  { assert (100 * ((g + 2) * (g + 2) - 1000000000000 * 1000000000000) <= 201 * (D * g)).
    { replace ((g + 2) * (g + 2) - 1000000000000 * 1000000000000) with (D * g + 1000000000000 * D + 4 * g + 4) by (unfold D; ring).
      assert (1000000000000 * D <= g * D) by (apply Z.mul_le_mono_nonneg_r; lia).
      assert (3000000 * g <= D * g) by (apply Z.mul_le_mono_nonneg_r; lia). lia. }
    assert (100 * ((g + 2) * (g + 2) - 1000000000000 * 1000000000000) * X <= 201 * (D * g) * X) by (apply Z.mul_le_mono_nonneg_r; lia).
    lia. }
  assert (A' : 99 * (g * g * X) <= 100 * (1000000000000 * 1000000000000 * (X + S))).
  { assert (99 * (g * g) <= 100 * ((g - 2) * (g - 2))).
    { replace (100 * ((g - 2) * (g - 2))) with (99 * (g * g) + (g - 400) * g + 400) by ring.
      assert (0 <= (g - 400) * g) by (apply Z.mul_nonneg_nonneg; lia). lia. }
    assert (99 * (g * g) * X <= 100 * ((g - 2) * (g - 2)) * X) by (apply Z.mul_le_mono_nonneg_r; lia). lia. }
  assert (0 < g * X) by (apply Z.mul_pos_pos; lia).
  apply Z.mul_le_mono_pos_r with (g * X); [assumption |].
  (* 900 g g X <= X1 D g X *)
  assert (C1 : (X + S) * (100 * (1000000000000 * 1000000000000 * S)) <= (X + S) * (201 * (D * g) * X)) by (apply Z.mul_le_mono_nonneg_l; lia).
  assert (C2 : (X + S) * (D * g * X) <= 4 * X1 * (D * g * X)) by (apply Z.mul_le_mono_nonneg_r; [apply Z.mul_nonneg_nonneg; [apply Z.mul_nonneg_nonneg |]; lia | lia]).
  assert (C3 : (X + S) * 10000 <= (X + S) * S) by (apply Z.mul_le_mono_nonneg_l; lia).
  lia.
Qed.

(** The arithmetic: [g0], [g1] and [g2] are the roots for the deposit at once, the rest
    kept and the proceeds of the trade. *)
Lemma deposit_halves S X Y X1 Y1 s g0 g1 g2 :
  10 ^ 4 <= S -> 1 <= X <= 10 ^ 5 * S -> 1 <= Y1 <= Y -> X <= X1 <= X + S -> X + S <= 4 * X1 ->
  X * Y <= X1 * Y1 < X * Y + Y1 -> 10 ^ 9 <= s ->
  grows S X g0 -> grows (X + S - X1) X1 g1 -> grows (Y - Y1) Y1 g2 ->
  let one := s * (g0 - P) / P in let f1 := s * (g1 - P) / P in let f2 := (s + f1) * (g2 - P) / P in
  g1 <= g0 + 4 /\ g2 <= 2 * g0 /\ s + f1 <= s * g1 /\ (s + f1) * (g2 - P) <= 2 * (s * g0) /\ 0 <= one /\ 0 <= f1 /\ 0 <= f2 /\
  200 * Z.abs (one - (f1 + f2)) <= f1 + f2.
Proof.
  intros HS HX HY HX1 HT HK Hs (P0 & A0 & B0) (P1 & A1 & B1) (P2 & A2 & B2). cbv zeta.
  replace (X1 + (X + S - X1)) with (X + S) in A1, B1 by ring. replace (Y1 + (Y - Y1)) with Y in A2, B2 by ring.
  change (10 ^ 12) with 1000000000000 in *. change (10 ^ 4) with 10000 in *. change (10 ^ 5) with 100000 in *.
  change (10 ^ 9) with 1000000000 in *.
  pose proof (div_bounds (s * (g0 - 1000000000000)) 1000000000000 ltac:(lia)) as D0.
  set (one := s * (g0 - 1000000000000) / 1000000000000) in *.
  pose proof (div_bounds (s * (g1 - 1000000000000)) 1000000000000 ltac:(lia)) as D1.
  set (f1 := s * (g1 - 1000000000000) / 1000000000000) in *.
  pose proof (div_bounds ((s + f1) * (g2 - 1000000000000)) 1000000000000 ltac:(lia)) as D2.
  set (f2 := (s + f1) * (g2 - 1000000000000) / 1000000000000) in *.
  assert (F0 : 0 <= one) by (apply Z.div_pos; [apply Z.mul_nonneg_nonneg |]; lia).
  assert (F1 : 0 <= f1) by (apply Z.div_pos; [apply Z.mul_nonneg_nonneg |]; lia).
  assert (F2 : 0 <= f2) by (apply Z.div_pos; [apply Z.mul_nonneg_nonneg |]; lia).
  clearbody one f1 f2.
  (* the roots of the parts are not larger *)
  assert (L1 : g1 <= g0 + 4).
  { destruct (Z.le_gt_cases g1 (g0 + 4)) as [| C]; [assumption | exfalso].
    assert ((g0 + 2) * (g0 + 2) < (g1 - 2) * (g1 - 2)) by (apply Z.mul_lt_mono_nonneg; lia).
    assert ((g0 + 2) * (g0 + 2) * X < (g1 - 2) * (g1 - 2) * X) by (apply Z.mul_lt_mono_pos_r; lia).
    assert ((g1 - 2) * (g1 - 2) * X <= (g1 - 2) * (g1 - 2) * X1) by (apply Z.mul_le_mono_nonneg_l; [apply Z.mul_nonneg_nonneg |]; lia).
    lia. }
  set (u := (g1 - 2) * (g2 - 2)). set (v := (g1 + 2) * (g2 + 2)).
  assert (XY : 0 < X1 * Y1) by (apply Z.mul_pos_pos; lia).
  assert (HXY : 0 <= X * Y) by (apply Z.mul_nonneg_nonneg; lia).
  assert (U : u <= 1000000000000 * (g0 + 2)).
  { apply Z.square_le_simpl_nonneg; [lia |].
    apply Z.mul_le_mono_pos_r with (X1 * Y1); [exact XY |].
    assert (M1 : (g1 - 2) * (g1 - 2) * X1 * ((g2 - 2) * (g2 - 2) * Y1) <=
      1000000000000 * 1000000000000 * (X + S) * (1000000000000 * 1000000000000 * Y)).
    { apply Z.mul_le_mono_nonneg; try assumption; (apply Z.mul_nonneg_nonneg; [apply Z.square_nonneg | lia]). }
    assert (M2 : 1000000000000 * 1000000000000 * (X + S) * (1000000000000 * 1000000000000 * Y) <=
      (g0 + 2) * (g0 + 2) * X * (1000000000000 * 1000000000000 * Y)) by (apply Z.mul_le_mono_nonneg_r; lia).
    assert (M3 : (g0 + 2) * (g0 + 2) * (X * Y) <= (g0 + 2) * (g0 + 2) * (X1 * Y1))
      by (apply Z.mul_le_mono_nonneg_l; [apply Z.square_nonneg | lia]).
    replace (u * u * (X1 * Y1)) with ((g1 - 2) * (g1 - 2) * X1 * ((g2 - 2) * (g2 - 2) * Y1)) by (unfold u; ring).
    lia. }
  assert (V : 1000000000000 * (g0 - 2) * (X1 - 1) <= v * X1).
  { assert (N0 : 0 <= v) by (unfold v; apply Z.mul_nonneg_nonneg; lia).
    apply Z.square_le_simpl_nonneg; [apply Z.mul_nonneg_nonneg; lia |].
    (* v^2 X1 Y1 >= P^2 (g0-2)^2 X Y and X Y >= (X1 - 1) Y1 *)
    assert (M1 : 1000000000000 * 1000000000000 * (X + S) * (1000000000000 * 1000000000000 * Y) <=
      (g1 + 2) * (g1 + 2) * X1 * ((g2 + 2) * (g2 + 2) * Y1)).
    { apply Z.mul_le_mono_nonneg; try assumption; lia. }
    assert (M2 : (g0 - 2) * (g0 - 2) * X * (1000000000000 * 1000000000000 * Y) <=
      1000000000000 * 1000000000000 * (X + S) * (1000000000000 * 1000000000000 * Y)) by (apply Z.mul_le_mono_nonneg_r; lia).
    assert (M3 : (g0 - 2) * (g0 - 2) * ((X1 - 1) * Y1) <= (g0 - 2) * (g0 - 2) * (X * Y))
      by (apply Z.mul_le_mono_nonneg_l; [apply Z.square_nonneg | lia]).
    assert (M4 : 1000000000000 * (g0 - 2) * (1000000000000 * (g0 - 2)) * (X1 - 1) <= v * v * X1).
    { apply Z.mul_le_mono_pos_r with Y1; [lia |]. unfold v. lia. }
    assert (M5 : 1000000000000 * (g0 - 2) * (1000000000000 * (g0 - 2)) * (X1 - 1) * (X1 - 1) <= v * v * X1 * (X1 - 1))
      by (apply Z.mul_le_mono_nonneg_r; lia).
    assert (M6 : v * v * X1 * (X1 - 1) <= v * v * X1 * X1)
      by (apply Z.mul_le_mono_nonneg_l; [apply Z.mul_nonneg_nonneg; [apply Z.mul_nonneg_nonneg |]; lia | lia]).
    replace (1000000000000 * (g0 - 2) * (X1 - 1) * (1000000000000 * (g0 - 2) * (X1 - 1)))
      with (1000000000000 * (g0 - 2) * (1000000000000 * (g0 - 2)) * (X1 - 1) * (X1 - 1)) by ring.
    replace (v * X1 * (v * X1)) with (v * v * X1 * X1) by ring.
    exact (Z.le_trans _ _ _ M5 M6). }
  pose proof (root_rises S X g0 ltac:(lia) (conj P0 (conj A0 B0))) as R.
  pose proof (root_rises_more S X X1 g0 ltac:(lia) ltac:(lia) HT (conj P0 (conj A0 B0))) as R'.
  change (10 ^ 12) with 1000000000000 in *.
  clear A0 B0 A1 B1 A2 B2 HK HXY XY HX HY HT HS.
  assert (L2 : 1000 * g2 <= 1001 * g0).
  { assert (999999999998 * (g2 - 2) <= u) by (apply Z.mul_le_mono_nonneg_r; lia). lia. }
  set (w := g1 * g2).
  assert (Eu : u = w - 2 * g1 - 2 * g2 + 4) by (unfold u, w; ring).
  assert (Ev : v = w + 2 * g1 + 2 * g2 + 4) by (unfold v, w; ring).
  clearbody u v. subst u v.
  set (D := g0 - 1000000000000) in *.
  (* the product of the roots *)
  assert (W1 : w <= 1000000000000 * g0 + 7 * g0) by lia.
  assert (W2 : 899 * (1000000000000 * D) <= 900 * (w - 1000000000000 * 1000000000000) + 6300 * g0).
  { apply Z.mul_le_mono_pos_r with X1; [lia |].
    assert (900 * g0 * 1000000000000 <= X1 * D * 1000000000000) by lia.
    assert (X1 * (2000000000000 + 2 * g1 + 2 * g2 + 4) <= X1 * (7 * g0)) by (apply Z.mul_le_mono_nonneg_l; lia).
    unfold D in *. lia. }
  (* pool tokens *)
  assert (T1 : (s + f1) * 1000000000000 <= s * g1) by lia.
  assert (T2 : s * g1 < (s + f1 + 1) * 1000000000000) by lia.
  assert (T3 : (s + f1) * 1000000000000 * (g2 - 1000000000000) <= s * g1 * (g2 - 1000000000000)) by (apply Z.mul_le_mono_nonneg_r; lia).
  assert (T4 : s * g1 * (g2 - 1000000000000) <= (s + f1 + 1) * 1000000000000 * (g2 - 1000000000000)) by (apply Z.mul_le_mono_nonneg_r; lia).
  replace (s * g1 * (g2 - 1000000000000)) with (s * w - 1000000000000 * (s * g1)) in T3, T4 by (unfold w; ring).
  assert (SW1 : s * w <= s * (1000000000000 * g0 + 7 * g0)) by (apply Z.mul_le_mono_nonneg_l; lia).
  assert (SW2 : s * (899 * (1000000000000 * D)) <= s * (900 * (w - 1000000000000 * 1000000000000) + 6300 * g0))
    by (apply Z.mul_le_mono_nonneg_l; lia).
  assert (SR : s * g0 <= s * (300000 * D)) by (apply Z.mul_le_mono_nonneg_l; lia).
  assert (SD : 1000000000 * D <= s * D) by (apply Z.mul_le_mono_nonneg_r; lia).
  assert (SG : 0 <= s * g0) by (apply Z.mul_nonneg_nonneg; lia).
  set (E := (s + f1) * (g2 - 1000000000000)) in *.
  replace ((s + f1) * 1000000000000 * (g2 - 1000000000000)) with (1000000000000 * E) in T3 by (unfold E; ring).
  replace ((s + f1 + 1) * 1000000000000 * (g2 - 1000000000000)) with (1000000000000 * E + 1000000000000 * (g2 - 1000000000000)) in T4
    by (unfold E; ring).
  replace (s * (1000000000000 * g0 + 7 * g0)) with (1000000000007 * (s * g0)) in SW1 by ring.
  replace (s * (899 * (1000000000000 * D))) with (899000000000000 * (s * D)) in SW2 by ring.
  replace (s * (900 * (w - 1000000000000 * 1000000000000) + 6300 * g0))
    with (900 * (s * w) - 900 * 1000000000000 * 1000000000000 * s + 6300 * (s * g0)) in SW2 by ring.
  replace (s * (300000 * D)) with (300000 * (s * D)) in SR by ring.
  assert (ED : s * D = s * g0 - 1000000000000 * s) by (unfold D; ring).
  replace (s * D) with (s * g0 - 1000000000000 * s) in * by (symmetry; exact ED).
  replace (s * (g1 - 1000000000000)) with (s * g1 - 1000000000000 * s) in D1 by ring.
  assert (D0' : one * 1000000000000 <= s * g0 - 1000000000000 * s < one * 1000000000000 + 1000000000000) by lia.
  assert (Dg : D = g0 - 1000000000000) by reflexivity.
  clear D0 R' W1 W2 V U ED. clearbody E w D.
  set (sw := s * w) in *. set (sg0 := s * g0) in *. set (sg1 := s * g1) in *. clearbody sw sg0 sg1.
  split; [exact L1 |]. split; [lia |]. split; [lia |]. split; [lia |].
  split; [exact F0 |]. split; [exact F1 |]. split; [exact F2 |].
  assert (Z1 : sw - 1000000000000 * 1000000000000 * s - 1000000000000 * 1000000000000 - 1000000000000 * g2 <=
    1000000000000 * 1000000000000 * (f1 + f2)) by lia.
  assert (Z2 : 1000000000000 * 1000000000000 * (f1 + f2) <= sw - 1000000000000 * 1000000000000 * s) by lia.
  clear T1 T2 T3 T4 D1 D2.
  set (sD := sg0 - 1000000000000 * s) in *.
  assert (E0 : sg0 = sD + 1000000000000 * s) by (unfold sD; lia). clearbody sD. subst sg0.
  assert (Z3 : 897 * (1000000000000 * sD) <= 900 * (1000000000000 * 1000000000000 * (f1 + f2))) by lia.
  assert (Z4 : 1000 * (1000000000000 * 1000000000000 * (f1 + f2)) <= 1001 * (1000000000000 * sD)) by lia.
  clear - Z3 Z4 D0' SR SD R P0 Dg L2 F1 F2 Hs.
  destruct (Z.abs_spec (one - (f1 + f2))) as [(_ & ->) | (_ & ->)]; lia.
Qed.

Lemma quote_facts h X Y src dst : 0 <= h -> 1 <= X -> 0 <= Y -> product_swap_quote h X Y = Val (src, dst) ->
  0 <= src <= h /\ 0 < dst < Y /\ X * Y <= (X + src) * (Y - dst) < X * Y + (Y - dst) /\ X + h < 2 * (X + src).
Proof.
  intros Hh HX HY. unfold product_swap_quote.
  destruct (Z.ltb_spec u128_max (X * Y)); [discriminate |].
  destruct (Z.eqb_spec (X + h) 0); [discriminate |]. cbn [orb].
  destruct (Z.ltb_spec (X * Y) (X + h)) as [| L].
  { destruct (Z.eqb_spec X 0); [lia |]. discriminate. }
  cbv zeta. set (k := X * Y) in *. set (t := X + h) in *.
  assert (T0 : 0 < t) by (unfold t; lia).
  pose proof (div_bounds (k + t - 1) t T0) as D1. set (nd := (k + t - 1) / t) in *.
  assert (N1 : 0 < nd) by nia.
  pose proof (div_bounds (k + nd - 1) nd N1) as D2. set (ns := (k + nd - 1) / nd) in *. clearbody nd ns.
  destruct (Z.eqb_spec nd Y) as [| Hne]; [discriminate |]. intros E. injection E as <- <-.
  assert (Hnd : nd <= Y).
  { assert (nd < Y + 1); [| lia]. apply Z.mul_lt_mono_pos_r with t; [assumption |].
    assert (X * Y <= t * Y) by (apply Z.mul_le_mono_nonneg_r; unfold t; lia). fold k in H0. lia. }
  assert (Hns : ns <= t).
  { assert (ns < t + 1); [| lia]. apply Z.mul_lt_mono_pos_r with nd; [assumption |]. lia. }
  assert (Hns' : X <= ns).
  { apply Z.mul_le_mono_pos_r with nd; [assumption |].
    assert (X * nd <= X * Y) by (apply Z.mul_le_mono_nonneg_l; lia). fold k in H0. lia. }
  replace (X + (ns - X)) with ns by ring. replace (Y - (Y - nd)) with nd by ring.
  split; [unfold t in *; lia |]. split; [lia |]. split; [lia |].
  apply Z.mul_lt_mono_pos_r with nd; [assumption |]. lia.
Qed.

Lemma like_deposit c o s a b supply d : product_like c o -> 0 <= b <= 2 ^ 100 ->
  calc_deposit_single c s a b supply d = calc_deposit_single ConstantProduct s a (b + o) supply d.
Proof.
  intros [(-> & ->) | (-> & Ho)] Hb.
  - rewrite Z.add_0_r. reflexivity.
  - cbn [calc_deposit_single]. unfold offset_deposit_single. change (2 ^ 100) with 1267650600228229401496703205376 in Hb.
    unfold is_u64 in Ho. rewrite add_in_eq by (consts; lia). reflexivity.
Qed.

Lemma grows_le n y g : is_u64 n -> 1 <= y -> grows n y g -> g <= 8589934592 * P + 2.
Proof.
  unfold is_u64. rewrite u64_max_val. intros Hn Hy (G & A & _). change (10 ^ 12) with 1000000000000 in *.
  destruct (Z.le_gt_cases g (8589934592 * 1000000000000 + 2)) as [| C]; [assumption | exfalso].
  set (m := 8589934592 * 1000000000000 + 1) in *.
  assert (m * m <= (g - 2) * (g - 2)) by (apply Z.mul_le_mono_nonneg; unfold m; lia).
  assert (m * m * y <= (g - 2) * (g - 2) * y) by (apply Z.mul_le_mono_nonneg_r; lia).
  set (v := (g - 2) * (g - 2) * y) in *. clearbody v. unfold m in *. lia.
Qed.

(** The reserves that count, in the order of the trade. *)
Definition source_side (d : trade_direction) (o : Z) : Z := match d with AtoB => 0 | BtoA => o end.
Definition dest_side (d : trade_direction) (o : Z) : Z := match d with AtoB => o | BtoA => 0 end.

Lemma deposit_conversion_check c o S ss sd d s src dst : product_like c o ->
  is_u64 S -> is_u64 ss -> is_u64 sd -> is_u64 o -> 10 ^ 9 <= s <= u64_max ->
  let X := ss + source_side d o in let Y := sd + dest_side d o in
  10 ^ 4 <= S -> 1 <= X <= 10 ^ 5 * S ->
  product_swap_quote (S / 2) X Y = Val (src, dst) -> dst <= sd ->
  check_deposit_token_conversion c S ss sd d s CONVERSION_BASIS_POINTS_GUARANTEE = Go tt.
Proof.
  intros Hc US Uss Usd Uo Hs. cbv zeta. set (X := ss + source_side d o). set (Y := sd + dest_side d o).
  intros HS HX Q Hdst. unfold is_u64 in *.
  pose proof (div_bounds S 2 ltac:(lia)) as Dh. set (h := S / 2) in *.
  assert (Hso : 0 <= source_side d o <= u64_max /\ 0 <= dest_side d o <= u64_max) by (rewrite u64_max_val in *; destruct d; cbn [source_side dest_side]; lia).
  destruct (quote_facts h X Y src dst) as (F1 & F2 & F3 & F4); [change (10 ^ 4) with 10000 in HS; lia | lia | unfold Y; lia | exact Q |].
  unfold check_deposit_token_conversion, CONVERSION_BASIS_POINTS_GUARANTEE. cbv zeta. fold h.
  assert (Hh : 0 <= h <= u64_max) by (change (10 ^ 4) with 10000 in HS; lia).
  rewrite (like_swap c o) by (try assumption; unfold is_u64; lia).
  replace (match d with AtoB => product_swap_quote h ss (sd + o) | BtoA => product_swap_quote h (ss + o) sd end)
    with (product_swap_quote h X Y) by (unfold X, Y; destruct d; cbn [source_side dest_side]; rewrite ?Z.add_0_r; reflexivity).
  rewrite Q. cbn [unwrap tbind].
  assert (M : u64_max = 18446744073709551615) by reflexivity.
  assert (M70 : 2 ^ 70 = 1180591620717411303424) by reflexivity.
  assert (M100 : 2 ^ 100 = 1267650600228229401496703205376) by reflexivity.
  assert (M140 : 2 ^ 140 = 1393796574908163946345982392040522594123776) by reflexivity.
  assert (M128 : u128_max = 340282366920938463463374607431768211455) by reflexivity.
  rewrite (tadd_eq ss src) by lia. rewrite (tsub_eq sd dst) by lia. rewrite (tsub_eq S src) by lia.
  (* the three deposits *)
  assert (One : forall n x y sup, is_u64 n -> 0 <= x <= 2 ^ 66 -> 0 <= y <= 2 ^ 66 -> 0 < x + source_side d o -> 0 <= sup <= 2 ^ 100 ->
    exists g, grows n (x + source_side d o) g /\ (sup * (g - P) <= 2 ^ 140 ->
      (let (a, b) := in_order d x y in calc_deposit_single c n a b sup d) = Val (sup * (g - P) / P))).
  { intros n x y sup Un Hx Hy Hp Hsup. change (2 ^ 66) with 73786976294838206464 in *. destruct d; cbn [in_order source_side] in *.
    - destruct (deposit_wide n x (y + o) sup AtoB) as (g & G & E); cbn [reserve_of]; [assumption | lia | lia |].
      exists g. rewrite Z.add_0_r in *. split; [exact G |]. intros Hsm. rewrite (like_deposit c o) by (try assumption; lia). exact (E Hsm).
    - destruct (deposit_wide n y (x + o) sup BtoA) as (g & G & E); cbn [reserve_of]; [assumption | lia | lia |].
      exists g. split; [exact G |]. intros Hsm. rewrite (like_deposit c o) by (try assumption; lia). exact (E Hsm). }
  assert (Two : forall n x y sup, is_u64 n -> 0 <= x <= 2 ^ 66 -> 0 <= y <= 2 ^ 66 -> 0 < y + dest_side d o -> 0 <= sup <= 2 ^ 100 ->
    exists g, grows n (y + dest_side d o) g /\ (sup * (g - P) <= 2 ^ 140 ->
      (let (a, b) := in_order d x y in calc_deposit_single c n a b sup (opposite d)) = Val (sup * (g - P) / P))).
  { intros n x y sup Un Hx Hy Hp Hsup. change (2 ^ 66) with 73786976294838206464 in *. destruct d; cbn [in_order dest_side opposite] in *.
    - destruct (deposit_wide n x (y + o) sup BtoA) as (g & G & E); cbn [reserve_of]; [assumption | lia | lia |].
      exists g. split; [exact G |]. intros Hsm. rewrite (like_deposit c o) by (try assumption; lia). exact (E Hsm).
    - destruct (deposit_wide n y (x + o) sup AtoB) as (g & G & E); cbn [reserve_of]; [assumption | lia | lia |].
      exists g. rewrite Z.add_0_r in *. split; [exact G |]. intros Hsm. rewrite (like_deposit c o) by (try assumption; lia). exact (E Hsm). }
  assert (X0 : 1 <= ss + src + source_side d o) by (unfold X in *; lia).
  assert (Y0 : 1 <= sd - dst + dest_side d o) by (unfold Y in *; lia).
  destruct (One S ss sd s) as (g0 & G0 & E0); [unfold is_u64; lia | change (2 ^ 66) with 73786976294838206464; lia .. | fold X; lia | lia |].
  destruct (One (S - src) (ss + src) (sd - dst) s) as (g1 & G1 & E1);
    [unfold is_u64; lia | change (2 ^ 66) with 73786976294838206464; lia .. | lia | lia |].
  pose proof (grows_le S (ss + source_side d o) g0 ltac:(unfold is_u64; lia) ltac:(fold X; lia) G0) as B0.
  pose proof (grows_le (S - src) _ g1 ltac:(unfold is_u64; lia) X0 G1) as B1.
  assert (P0 : P <= g0) by exact (proj1 G0). assert (P1 : P <= g1) by exact (proj1 G1).
  assert (S0 : 0 <= s * g0 <= 18446744073709551615 * (8589934592 * P + 2)).
  { split; [apply Z.mul_nonneg_nonneg; lia | apply Z.mul_le_mono_nonneg; lia]. }
  assert (S1 : 0 <= s * g1 <= 18446744073709551615 * (8589934592 * P + 2)).
  { split; [apply Z.mul_nonneg_nonneg; lia | apply Z.mul_le_mono_nonneg; lia]. }
  assert (F1b : s * (g1 - P) / P <= 18446744073709551615 * 8589934593).
  { apply Z.div_le_upper_bound; [lia |]. rewrite Z.mul_sub_distr_l. change (10 ^ 12) with 1000000000000 in *. lia. }
  assert (F1a : 0 <= s * (g1 - P) / P).
  { apply Z.div_pos; [apply Z.mul_nonneg_nonneg; lia | lia]. }
  destruct (Two dst (ss + src) (sd - dst) (s + s * (g1 - P) / P)) as (g2 & G2 & E2);
    [unfold is_u64; lia | change (2 ^ 66) with 73786976294838206464; lia .. | lia | lia |].
  destruct (deposit_halves S X Y (X + src) (Y - dst) s g0 g1 g2) as (H1 & H2 & H3 & H4 & H5 & H6 & H7 & H8);
    [assumption | assumption | unfold Y in *; lia | lia | lia | exact F3 | lia | exact G0
    | replace (X + S - (X + src)) with (S - src) by ring; replace (X + src) with (ss + src + source_side d o) by (unfold X; ring); exact G1
    | replace (Y - (Y - dst)) with dst by ring; replace (Y - dst) with (sd - dst + dest_side d o) by (unfold Y; ring); exact G2 |].
  specialize (E0 ltac:(rewrite Z.mul_sub_distr_l, M140; change (10 ^ 12) with 1000000000000 in *; lia)).
  specialize (E1 ltac:(rewrite Z.mul_sub_distr_l, M140; change (10 ^ 12) with 1000000000000 in *; lia)).
  specialize (E2 ltac:(rewrite M140; change (10 ^ 12) with 1000000000000 in *; lia)).
  clear One Two.
  set (one := s * (g0 - P) / P) in *. set (f1 := s * (g1 - P) / P) in *. set (f2 := (s + f1) * (g2 - P) / P) in *.
  assert (F2b : f2 <= 2 * (18446744073709551615 * 8589934593)).
  { unfold f2. apply Z.div_le_upper_bound; [lia |]. change (10 ^ 12) with 1000000000000 in *. lia. }
  assert (Hend : assert ((if f1 + f2 <=? one then one - (f1 + f2) else f1 + f2 - one) <=? Z.max 1 ((f1 + f2) * 50 / 10000)) = Go tt).
  { apply assert_eq, Z.leb_le.
    apply Z.le_trans with ((f1 + f2) * 50 / 10000); [| lia].
    apply Z.div_le_lower_bound; [lia |]. clearbody one f1 f2. clear - H8.
    destruct (Z.leb_spec (f1 + f2) one); lia. }
  destruct (in_order d ss sd) as [a b].
  rewrite E0. cbn [unwrap tbind]. destruct (in_order d (ss + src) (sd - dst)) as [a' b']. rewrite E1. cbn [unwrap tbind].
  rewrite tadd_eq by lia. cbn [tbind]. rewrite E2. cbn [unwrap tbind].
  rewrite tadd_eq by (change (10 ^ 12) with 1000000000000 in *; lia). cbn [tbind].
  rewrite tmul_eq by (change (10 ^ 12) with 1000000000000 in *; lia). cbn [tbind].
  exact Hend.
Qed.

(** There is a trade and the deposit agrees with the two deposits after it, or there is none. *)
Lemma deposit_conversion_one c o S ss sd d s : product_like c o ->
  is_u64 S -> is_u64 ss -> is_u64 sd -> is_u64 o -> 10 ^ 9 <= s <= u64_max ->
  let X := ss + source_side d o in let Y := sd + dest_side d o in
  10 ^ 4 <= S -> 1 <= X <= 10 ^ 5 * S ->
  (forall src dst, product_swap_quote (S / 2) X Y = Val (src, dst) -> dst <= sd) ->
  let trade := swap_without_fees c (S / 2) ss sd d in
  let check := check_deposit_token_conversion c S ss sd d s CONVERSION_BASIS_POINTS_GUARANTEE in
  trade = product_swap_quote (S / 2) X Y /\
  ((exists r, trade = Val r) /\ check = Go tt \/ (forall r, trade <> Val r) /\ check = Stop Broke).
Proof.
  intros Hc US Uss Usd Uo Hs. cbv zeta. set (X := ss + source_side d o). set (Y := sd + dest_side d o).
  intros HS HX HD. pose proof (div_bounds S 2 ltac:(lia)) as Dh.
  assert (E : swap_without_fees c (S / 2) ss sd d = product_swap_quote (S / 2) X Y).
  { rewrite (like_swap c o) by (try assumption; unfold is_u64 in *; rewrite u64_max_val in *; lia).
    unfold X, Y; destruct d; cbn [source_side dest_side]; rewrite ?Z.add_0_r; reflexivity. }
  split; [exact E |].
  destruct (product_quote_val (S / 2) X Y) as [Q | (src & dst & Q)].
  - right. split; [rewrite E, Q; discriminate |].
    unfold check_deposit_token_conversion. cbv zeta. rewrite E, Q. reflexivity.
  - left. split; [exists (src, dst); rewrite E; exact Q |].
    apply (deposit_conversion_check c o S ss sd d s src dst); try assumption. exact (HD src dst Q).
Qed.

Lemma product_deposit_conversion source ss sd supply :
  drawn 2 u64_max source -> drawn64 ss -> drawn64 sd -> drawn_supply supply ->
  10 ^ 4 <= source -> ss <= 10 ^ 5 * source ->
  passes_with_a_trade (deposit_conversion ConstantProduct CONVERSION_BASIS_POINTS_GUARANTEE source ss sd supply)
    (swap_without_fees ConstantProduct (source / 2) ss sd AtoB).
Proof.
  intros H1 H2 H3 H4 HS HX. unfold drawn64, drawn_supply, drawn in *.
  change INITIAL_SWAP_POOL_AMOUNT with 1000000000 in H4. change (10 ^ 4) with 10000 in *. change (10 ^ 5) with 100000 in *.
  assert (D : forall src dst, product_swap_quote (source / 2) ss sd = Val (src, dst) -> dst <= sd).
  { intros src dst Q. pose proof (div_bounds source 2 ltac:(lia)) as Dh.
    destruct (quote_facts (source / 2) ss sd src dst) as (_ & F & _); [lia .. | exact Q | lia]. }
  assert (K : forall d, let trade := swap_without_fees ConstantProduct (source / 2) ss sd d in
    let check := check_deposit_token_conversion ConstantProduct source ss sd d supply CONVERSION_BASIS_POINTS_GUARANTEE in
    trade = product_swap_quote (source / 2) ss sd /\
    ((exists r, trade = Val r) /\ check = Go tt \/ (forall r, trade <> Val r) /\ check = Stop Broke)).
  { intros d. pose proof (deposit_conversion_one ConstantProduct 0 source ss sd d supply) as K. cbv zeta in K |- *.
    replace (ss + source_side d 0) with ss in K by (destruct d; cbn [source_side]; ring).
    replace (sd + dest_side d 0) with sd in K by (destruct d; cbn [dest_side]; ring).
    apply K; unfold is_u64; rewrite ?u64_max_val in *; try lia; [left; split; reflexivity | exact D]. }
  destruct (K AtoB) as (EA & KA). destruct (K BtoA) as (EB & KB). cbv zeta in *. rewrite EA in KA |- *. rewrite EB in KB.
  unfold deposit_conversion, passes_with_a_trade.
  destruct KA as [(RA & CA) | (RA & CA)], KB as [(RB & CB) | (RB & CB)]; rewrite CA; cbn [tbind]; rewrite ?CB.
  - left. split; [exact RA | reflexivity].
  - exfalso. destruct RA as (r & R). exact (RB r R).
  - right. split; [exact RA | reflexivity].
  - right. split; [exact RA | reflexivity].
Qed.

Lemma offset_deposit_conversion_a source ss sd supply o :
  drawn 2 u64_max source -> drawn64 ss -> drawn64 sd -> drawn_supply supply -> drawn64 o ->
  10 ^ 4 <= source -> ss <= 10 ^ 5 * source ->
  let v := offset_deposit_conversion_a_to_b source ss sd supply o in
  v = Rejected \/ passes_with_a_trade v (swap_without_fees (Offset o) (source / 2) ss sd AtoB).
Proof.
  intros H1 H2 H3 H4 H5 HS HX. cbv zeta. unfold drawn64, drawn_supply, drawn in *.
  change INITIAL_SWAP_POOL_AMOUNT with 1000000000 in H4. change (10 ^ 4) with 10000 in *. change (10 ^ 5) with 100000 in *.
  pose proof (div_bounds source 2 ltac:(lia)) as Dh.
  unfold offset_deposit_conversion_a_to_b. rewrite u64_max_val in *.
  assert (Q1 : 0 <= source / 2 * o <= 18446744073709551615 * 18446744073709551615).
  { split; [apply Z.mul_nonneg_nonneg | apply Z.mul_le_mono_nonneg]; lia. }
  assert (Q2 : 0 <= ss * sd <= 18446744073709551615 * 18446744073709551615).
  { split; [apply Z.mul_nonneg_nonneg | apply Z.mul_le_mono_nonneg]; lia. }
  rewrite tmul_eq by (rewrite u128_max_val; lia). cbn [tbind].
  rewrite tmul_eq by (rewrite u128_max_val; lia). cbn [tbind].
  assumed A1.
  rewrite tadd_eq by (rewrite u128_max_val; lia). cbn [tbind].
  assumed A2. right.
  destruct (deposit_conversion_one (Offset o) o source ss sd AtoB supply) as (E & K);
    try (unfold is_u64; rewrite ?u64_max_val; cbn [source_side]; lia).
  - right. split; [reflexivity | unfold is_u64; rewrite u64_max_val; lia].
  - cbn [source_side dest_side]. rewrite Z.add_0_r. intros src dst Q.
    apply (offset_dst (source / 2) ss sd o src dst); lia || assumption.
  - unfold passes_with_a_trade. destruct K as [(R & C) | (R & C)]; rewrite C; [left | right]; split; try exact R; reflexivity.
Qed.

Lemma offset_deposit_conversion_b source ss sd supply o :
  drawn 2 u64_max source -> drawn64 ss -> drawn64 sd -> drawn_supply supply -> drawn64 o ->
  10 ^ 4 <= source -> ss + o <= 10 ^ 5 * source ->
  let v := offset_deposit_conversion_b_to_a source ss sd supply o in
  v = Rejected \/ passes_with_a_trade v (swap_without_fees (Offset o) (source / 2) ss sd BtoA).
Proof.
  intros H1 H2 H3 H4 H5 HS HX. cbv zeta. unfold drawn64, drawn_supply, drawn in *.
  change INITIAL_SWAP_POOL_AMOUNT with 1000000000 in H4. change (10 ^ 4) with 10000 in *. change (10 ^ 5) with 100000 in *.
  pose proof (div_bounds source 2 ltac:(lia)) as Dh.
  unfold offset_deposit_conversion_b_to_a. rewrite u64_max_val in *.
  rewrite tadd_eq by (rewrite u128_max_val; lia). cbn [tbind].
  assumed A2. right.
  destruct (deposit_conversion_one (Offset o) o source ss sd BtoA supply) as (E & K);
    try (unfold is_u64; rewrite ?u64_max_val; cbn [source_side]; lia).
  - right. split; [reflexivity | unfold is_u64; rewrite u64_max_val; lia].
  - cbn [source_side dest_side]. rewrite Z.add_0_r. intros src dst Q.
    destruct (quote_facts (source / 2) (ss + o) sd src dst) as (_ & F & _); [lia .. | exact Q | lia].
  - unfold passes_with_a_trade. destruct K as [(R & C) | (R & C)]; rewrite C; [left | right]; split; try exact R; reflexivity.
Qed.
