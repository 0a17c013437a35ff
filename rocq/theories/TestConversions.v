(** The conversion tests of the constant-product and the offset curve (C93, C94). *)
From Verif Require Import Ints Tactics SplMath ConstantProduct OffsetCurve LinearCurve SwapCurve Spec CurveFacts DfsFacts
  QuoteSpec QuoteFacts QuoteCurves RootFacts RandomTests TestSpec TestFacts TestProduct.

(** ** One-sided withdrawals *)

Notation P := (10 ^ 12).

(** Rounding of the root and of the pool tokens, for a remaining share with
    [P * r^2 <= x * s^2] and [x] not much above. *)
Lemma root_back n s x g t : 1 <= n < s -> s <= 10 ^ 7 * n -> 0 < x ->
  let r := s - n in
  P * (r * r) <= x * (s * s) -> 500 * (x * (s * s)) <= P * (500 * (r * r) + 4 * (n * r)) + 500 * (s * s) ->
  root12 x g -> g <= P -> t = round12 Ceiling (s * (P - g)) ->
  0 <= t /\ Z.abs (t - n) <= Z.max 1 (n * 50 / 10000).
Proof.
  intros Hn H7 Hx. cbv zeta. set (r := s - n). assert (Hr : 1 <= r) by (unfold r; lia).
  assert (Es : s = n + r) by (unfold r; lia). clearbody r. subst s.
  intros L U (G1 & G2) GP ->. cbn [round12].
  set (s := n + r) in *.
  change (10 ^ 12) with 1000000000000 in *. change (5 * 10 ^ 11) with 500000000000 in *. change (10 ^ 7) with 10000000 in *.
  pose proof (Z.sqrt_spec (x * 1000000000000 + 500000000000) ltac:(lia)) as (S1 & S2). cbv zeta in S1, S2.
  pose proof (Z.sqrt_nonneg (x * 1000000000000 + 500000000000)) as S0.
  set (q := Z.sqrt (x * 1000000000000 + 500000000000)) in *. clearbody q.
  pose proof (div_bounds (s * (1000000000000 - g) + 1000000000000 - 1) 1000000000000 ltac:(lia)) as D.
  set (t := (s * (1000000000000 - g) + 1000000000000 - 1) / 1000000000000) in *. clearbody t.
  assert (Sg : 0 <= s * (1000000000000 - g)) by (apply Z.mul_nonneg_nonneg; lia).
  (* from above *)
  assert (A1 : 1000000000000 * r < s * (q + 1)).
  { apply Z.square_lt_simpl_nonneg; [apply Z.mul_nonneg_nonneg; lia |].
    assert (s * s * (x * 1000000000000) < s * s * (Z.succ q * Z.succ q)) by (apply Z.mul_lt_mono_pos_l; [apply Z.mul_pos_pos; lia | lia]).
    lia. }
  assert (A2 : s * (1000000000000 - g) < 1000000000000 * n + s).
  { assert (s * q <= s * g) by (apply Z.mul_le_mono_nonneg_l; lia). unfold s in *. lia. }
  (* from below *)
  assert (A3 : 199 * (1000000000000 * n) <= 200 * (s * (1000000000000 - g))).
  { destruct (Z.le_gt_cases (199 * (1000000000000 * n)) (200 * (s * (1000000000000 - g)))) as [| C]; [assumption | exfalso].
    set (G := 200 * r + n) in *.
    assert (C1 : 1000000000000 * G < 200 * (s * g)) by (unfold G, s in *; lia).
    assert (C2 : 200 * (s * g) <= 200 * (s * q) + 200 * s).
    { assert (s * g <= s * (q + 1)) by (apply Z.mul_le_mono_nonneg_l; lia). lia. }
    assert (C3 : 0 <= 1000000000000 * G - 200 * s) by (unfold G, s; lia).
    assert (C4 : (1000000000000 * G - 200 * s) * (1000000000000 * G - 200 * s) <= 200 * (s * q) * (200 * (s * q)))
      by (apply Z.mul_le_mono_nonneg; lia).
    assert (C5 : s * s * (q * q) <= s * s * (x * 1000000000000 + 500000000000)) by (apply Z.mul_le_mono_nonneg_l; [apply Z.mul_nonneg_nonneg; lia | lia]).
    assert (C6 : 10 ^ 5 * (s * (80 * r + n)) <= 1000000000000 * (n * (80 * r + n))).
    { assert (s * (80 * r + n) <= 10000000 * n * (80 * r + n)) by (apply Z.mul_le_mono_nonneg_r; lia). lia. }
    change (10 ^ 5) with 100000 in C6.
    assert (R1 : 0 < s * r) by (apply Z.mul_pos_pos; lia). assert (R2 : 0 < s * n) by (apply Z.mul_pos_pos; lia).
    assert (R3 : s * s = s * r + s * n) by (unfold s; ring).
    assert (R4 : s * G = 200 * (s * r) + s * n) by (unfold G; ring).
    assert (R5 : G * G = 40000 * (r * r) + 400 * (n * r) + n * n) by (unfold G; ring).
    replace (n * (80 * r + n)) with (80 * (n * r) + n * n) in C6 by ring.
    replace (s * (80 * r + n)) with (80 * (s * r) + s * n) in C6 by ring.
    replace ((1000000000000 * G - 200 * s) * (1000000000000 * G - 200 * s))
      with (1000000000000 * 1000000000000 * (G * G) - 400 * 1000000000000 * (s * G) + 40000 * (s * s)) in C4 by ring.
    replace (200 * (s * q) * (200 * (s * q))) with (40000 * (s * s * (q * q))) in C4 by ring.
    replace (s * s * (x * 1000000000000 + 500000000000)) with (1000000000000 * (x * (s * s)) + 500000000000 * (s * s)) in C5 by ring.
    clear - C4 C5 C6 R1 R2 R3 R4 R5 U. 
    set (X := x * (s * s)) in *. set (sq := s * s * (q * q)) in *. set (sr := s * r) in *. set (sn := s * n) in *.
    set (nr := n * r) in *. set (rr := r * r) in *. set (nn := n * n) in *. set (ss := s * s) in *. set (sG := s * G) in *. set (GG := G * G) in *.
    clearbody X sq sr sn nr rr nn ss sG GG. lia. }
  split; [lia |].
  pose proof (div_bounds (n * 50) 10000 ltac:(lia)) as E. set (k := n * 50 / 10000) in *. clearbody k.
  assert (199 * n <= 200 * t) by lia.
  assert (T : (t - n - 1) * 1000000000000 < s) by lia.
  destruct (Z.le_gt_cases s 1000000000000); [lia |].
  assert (n <= 10000000 * n) by lia. lia.
Qed.

(** [u] is the reserve of the token traded away, [y] that of the token kept. *)
Definition withdraws_enough (n s u y : Z) : Prop :=
  500 * (s * s) <= n * (s - n) * u /\ 500 * (s * s) <= n * (s - n) * y /\ s * s <= (s - n) * (s - n) * y.

Lemma withdraw_back n s u y : 1 <= n < s -> 0 < u <= u64_max -> 0 < y <= u64_max -> s <= 10 ^ 7 * n -> withdraws_enough n s u y ->
  let wu := n * u / s in let wy := n * y / s in
  0 <= wu <= u /\ 0 <= wy <= y /\
  exists src dst, product_swap_quote wu (u - wu) (y - wy) = Val (src, dst) /\ 0 <= wy + dst <= y /\
    forall t, product_withdraw (wy + dst) y s Ceiling t -> 0 <= t /\ Z.abs (t - n) <= Z.max 1 (n * 50 / 10000).
Proof.
  intros Hn Hu Hy H7 (Ku & Ky & Kr). cbv zeta. assert (Hs : 0 < s) by lia.
  pose proof (div_bounds (n * u) s Hs) as Du. pose proof (div_bounds (n * y) s Hs) as Dy.
  assert (Wu : 0 <= n * u / s) by (apply Z.div_pos; [apply Z.mul_nonneg_nonneg |]; lia).
  assert (Wy : 0 <= n * y / s) by (apply Z.div_pos; [apply Z.mul_nonneg_nonneg |]; lia).
  set (wu := n * u / s) in *. set (wy := n * y / s) in *. clearbody wu wy.
  set (r := s - n) in *. assert (Hr : 1 <= r) by (unfold r; lia).
  set (u' := u - wu). set (y' := y - wy).
  assert (U1 : r * u <= s * u') by (unfold u', r; lia).
  assert (U2 : s * u' < r * u + s) by (unfold u', r; lia).
  assert (Y1 : r * y <= s * y') by (unfold y', r; lia).
  assert (Y2 : s * y' < r * y + s) by (unfold y', r; lia).
  assert (U0 : 0 < u').
  { apply Z.mul_pos_cancel_l with s; [lia |]. assert (0 < r * u) by (apply Z.mul_pos_pos; lia). lia. }
  assert (Y0 : 0 < y').
  { apply Z.mul_pos_cancel_l with s; [lia |]. assert (0 < r * y) by (apply Z.mul_pos_pos; lia). lia. }
  split; [unfold u' in *; lia |]. split; [unfold y' in *; lia |].
  set (k := u' * y').
  assert (K1 : r * r * (u * y) <= s * s * k).
  { replace (r * r * (u * y)) with ((r * u) * (r * y)) by ring. replace (s * s * k) with ((s * u') * (s * y')) by (unfold k; ring).
    apply Z.mul_le_mono_nonneg; [apply Z.mul_nonneg_nonneg; lia | exact U1 | apply Z.mul_nonneg_nonneg; lia | exact Y1]. }
  assert (K2 : s * s * k <= (r * u + s) * (r * y + s)).
  { replace (s * s * k) with ((s * u') * (s * y')) by (unfold k; ring).
    apply Z.mul_le_mono_nonneg; [apply Z.mul_nonneg_nonneg; lia | lia | apply Z.mul_nonneg_nonneg; lia | lia]. }
  assert (Ss : 0 < s * s) by (apply Z.mul_pos_pos; lia).
  assert (Kl : u <= k).
  { apply Z.mul_le_mono_pos_l with (s * s); [exact Ss |].
    assert (s * s * u <= r * r * y * u) by (apply Z.mul_le_mono_nonneg_r; lia). lia. }
  assert (Ku64 : k <= u128_max).
  { rewrite u128_max_val. rewrite u64_max_val in *. unfold k.
    assert (u' * y' <= 18446744073709551615 * 18446744073709551615) by (apply Z.mul_le_mono_nonneg; unfold u', y'; lia). lia. }
  unfold product_swap_quote. replace (u' + wu) with u by (unfold u'; ring). fold k.
  destruct (Z.ltb_spec u128_max k); [lia |]. destruct (Z.eqb_spec u 0); [lia |]. cbn [orb].
  destruct (Z.ltb_spec k u); [lia |]. cbv zeta.
  pose proof (div_bounds (k + u - 1) u ltac:(lia)) as Dc. set (c := (k + u - 1) / u) in *. clearbody c.
  assert (C1 : k <= u * c) by lia. assert (C2 : u * c < k + u) by lia. clear Dc.
  (* the share kept by the pool *)
  assert (N1 : s * s * u <= n * r * u * y).
  { assert (500 * (s * s) * u <= n * r * y * u) by (apply Z.mul_le_mono_nonneg_r; lia).
    assert (0 <= s * s * u) by (apply Z.mul_nonneg_nonneg; lia). lia. }
  assert (Uy : 0 < u * y) by (apply Z.mul_pos_pos; lia).
  set (T := n * r * (u * y)).
  assert (T1 : 500 * (s * s * u) <= T).
  { unfold T. assert (500 * (s * s) * u <= n * r * y * u) by (apply Z.mul_le_mono_nonneg_r; lia). lia. }
  assert (T2 : 500 * (s * s * y) <= T).
  { unfold T. assert (500 * (s * s) * y <= n * r * u * y) by (apply Z.mul_le_mono_nonneg_r; lia). lia. }
  assert (T3 : 500 * (s * s) <= T).
  { assert (s * s * 1 <= s * s * u) by (apply Z.mul_le_mono_nonneg_l; lia). lia. }
  assert (R1 : r * s * u <= s * s * u) by (apply Z.mul_le_mono_nonneg_r; [lia |]; apply Z.mul_le_mono_nonneg_r; unfold r; lia).
  assert (R2 : r * s * y <= s * s * y) by (apply Z.mul_le_mono_nonneg_r; [lia |]; apply Z.mul_le_mono_nonneg_r; unfold r; lia).
  assert (CU : 500 * (s * s * (u * c)) <= 500 * (r * r * (u * y)) + 4 * T).
  { assert (s * s * (u * c) <= s * s * (k + u)) by (apply Z.mul_le_mono_nonneg_l; lia).
    replace ((r * u + s) * (r * y + s)) with (r * r * (u * y) + r * s * u + r * s * y + s * s) in K2 by ring.
    lia. }
  assert (CL : r * r * (u * y) <= s * s * (u * c)).
  { assert (s * s * k <= s * s * (u * c)) by (apply Z.mul_le_mono_nonneg_l; lia). lia. }
  clear K1 K2 R1 R2.
  assert (CUy : 500 * (s * s * c) <= (500 * (r * r) + 4 * (n * r)) * y).
  { apply Z.mul_le_mono_pos_l with u; [lia |]. unfold T in CU. lia. }
  assert (CLy : r * r * y <= s * s * c).
  { apply Z.mul_le_mono_pos_l with u; [lia |]. lia. }
  assert (Cpos : 0 < c).
  { apply Z.mul_pos_cancel_l with u; [lia |]. unfold k in C1. assert (0 < u' * y') by (apply Z.mul_pos_pos; lia). lia. }
  assert (Clt : c < y').
  { (* u * c < k + u <= u * y' since the trade takes at least a unit *)
    apply Z.mul_lt_mono_pos_l with (s * s); [exact Ss |].
    assert (r * s * y <= s * s * y') by (replace (r * s * y) with (s * (r * y)) by ring; replace (s * s * y') with (s * (s * y')) by ring; apply Z.mul_le_mono_nonneg_l; lia).
    assert (0 < n * r * y) by (repeat apply Z.mul_pos_pos; lia).
    replace (r * s * y) with (r * r * y + n * r * y) in H0 by (unfold r; ring). lia. }
  destruct (Z.eqb_spec c y'); [lia |].
  eexists _, _. split; [reflexivity |]. replace (wy + (y' - c)) with (y - c) by (unfold y'; ring).
  split; [unfold y' in *; lia |]. intros t (g & Hg & GP & Ht).
  change (10 ^ 12) with 1000000000000 in *.
  pose proof (div_bounds ((y - c) * 1000000000000) y ltac:(lia)) as Dx.
  set (x := 1000000000000 - (y - c) * 1000000000000 / y) in *.
  assert (X1 : c * 1000000000000 <= x * y) by (unfold x; lia).
  assert (X2 : x * y < c * 1000000000000 + y) by (unfold x; lia).
  assert (X0 : 0 < x). { apply Z.mul_pos_cancel_r with y; lia. }
  destruct Hg as [(E & _) | (_ & Hg)]; [lia |].
  apply (root_back n s x g t); try assumption; [fold r | fold r | lia]; change (10 ^ 12) with 1000000000000.
  - apply Z.mul_le_mono_pos_r with y; [lia |].
    assert (s * s * (c * 1000000000000) <= s * s * (x * y)) by (apply Z.mul_le_mono_nonneg_l; lia). lia.
  - apply Z.mul_le_mono_pos_r with y; [lia |].
    assert (s * s * (x * y) <= s * s * (c * 1000000000000 + y)) by (apply Z.mul_le_mono_nonneg_l; lia). lia.
Qed.

(** Both curves at once: the curve [c] is a constant product of [a] and [b + o]. *)
Definition product_like (c : curve) (o : Z) : Prop := c = ConstantProduct /\ o = 0 \/ c = Offset o /\ is_u64 o.

Lemma like_both c o n s a b r : product_like c o -> is_u64 n -> is_u64 s -> is_u64 a -> is_u64 b -> is_u64 (b + o) ->
  pool_tokens_to_trading_tokens c n s a b r = ratio_quote n s a (b + o) r.
Proof.
  intros [(-> & ->) | (-> & Ho)] Hn Hs Ha Hb Hbo.
  - rewrite Z.add_0_r. apply both_quotes; assumption.
  - destruct (offset_shift o 0 a b s n AtoB r Ho Hb) as (E & _). rewrite E. apply both_quotes; assumption.
Qed.

Lemma like_swap c o s ss sd d : product_like c o -> is_u64 s -> is_u64 ss -> is_u64 sd ->
  swap_without_fees c s ss sd d =
  match d with AtoB => product_swap_quote s ss (sd + o) | BtoA => product_swap_quote s (ss + o) sd end.
Proof.
  intros [(-> & ->) | (-> & Ho)] Hs Hss Hsd.
  - rewrite !Z.add_0_r, cprod_swap_quote by assumption. destruct d; reflexivity.
  - apply offset_swap_quote; assumption.
Qed.

Lemma like_singles c o s a b supply d : product_like c o -> is_u64 b ->
  calc_deposit_single c s a b supply d = calc_deposit_single ConstantProduct s a (b + o) supply d /\
  calc_withdraw_single c s a b supply d = calc_withdraw_single ConstantProduct s a (b + o) supply d.
Proof.
  intros [(-> & ->) | (-> & Ho)] Hb.
  - rewrite Z.add_0_r. split; reflexivity.
  - destruct (offset_shift o s a b supply 0 d Floor Ho Hb) as (_ & E1 & E2 & _). split; assumption.
Qed.

Lemma withdraw_conversion_check c o n s a b d : product_like c o -> drawn_part s n -> drawn64 a -> is_u64 b -> drawn64 (b + o) ->
  n * (b + o) / s <= b -> s <= 10 ^ 7 * n ->
  withdraws_enough n s a (b + o) -> withdraws_enough n s (b + o) a ->
  check_withdraw_token_conversion c n s a b d CONVERSION_BASIS_POINTS_GUARANTEE = Go tt.
Proof.
  intros Hc Hn Ha Ub Hb HB H7 W1 W2. apply dpart in Hn. apply d64 in Ha, Hb.
  destruct Hn as (Us & Un & Ln & Ms), Ha as (Ua & La & Ma), Hb as (Ubo & Lb & Mb).
  unfold check_withdraw_token_conversion, CONVERSION_BASIS_POINTS_GUARANTEE.
  rewrite (like_both c o) by assumption. unfold ratio_quote, share_of.
  destruct (Z.eqb_spec s 0); [lia |]. cbn [unwrap tbind].
  destruct (withdraw_back n s a (b + o) Ln ltac:(lia) ltac:(lia) H7 W1) as (Wa & Wb & x1 & y1 & Q1 & B1 & T1).
  destruct (withdraw_back n s (b + o) a Ln ltac:(lia) ltac:(lia) H7 W2) as (_ & _ & x2 & y2 & Q2 & B2 & T2).
  set (wa := n * a / s) in *. set (wb := n * (b + o) / s) in *. clearbody wa wb. unfold is_u64 in *.
  rewrite !tsub_eq by lia. cbn [tbind].
  assert (Fin : forall src dd, 0 <= src <= reserve_of dd a (b + o) ->
    (forall t, product_withdraw src (reserve_of dd a (b + o)) s Ceiling t -> 0 <= t /\ Z.abs (t - n) <= Z.max 1 (n * 50 / 10000)) ->
    (let! single := unwrap (calc_withdraw_single c src a b s dd) in
     let! scaled := tmul n 50 in
     assert ((if single <=? n then n - single else single - n) <=? Z.max 1 (scaled / 10000))) = Go tt).
  { intros src dd Hsrc Hall. rewrite (proj2 (like_singles c o src a b s dd Hc Ub)).
    assert (Rp : 0 < reserve_of dd a (b + o) <= u64_max) by (destruct dd; cbn [reserve_of]; lia).
    destruct (cprod_singles src a (b + o) s dd) as (_ & S2 & _ & S4); [unfold is_u64; lia | lia | unfold is_u64; lia |].
    destruct S4 as (t & Et); [lia | |].
    { apply Z.div_le_upper_bound; [lia |]. apply Z.mul_le_mono_nonneg_r; [discriminate | lia]. }
    rewrite Et. cbn [unwrap tbind]. destruct (S2 t Et) as (_ & _ & Pw). destruct (Hall t Pw) as (T0 & Tn).
    rewrite tmul_eq by (unfold u64_max, u128_max in *; lia). cbn [tbind].
    apply assert_eq. apply Z.leb_le. destruct (Z.leb_spec t n); lia. }
  destruct d; cbn [opposite].
  - rewrite (like_swap c o) by (try assumption; unfold is_u64; lia).
    replace (b - wb + o) with (b + o - wb) by ring. rewrite Q1. cbn [unwrap tbind].
    rewrite tadd_eq by (unfold is_u64, u64_max, u128_max in *; lia). cbn [tbind].
    apply (Fin (wb + y1) BtoA); cbn [reserve_of]; assumption.
  - rewrite (like_swap c o) by (try assumption; unfold is_u64; lia).
    replace (b - wb + o) with (b + o - wb) by ring. rewrite Q2. cbn [unwrap tbind].
    rewrite tadd_eq by (unfold is_u64, u64_max, u128_max in *; lia). cbn [tbind].
    apply (Fin (wa + y2) AtoB); cbn [reserve_of]; assumption.
Qed.

(** Each half of the condition, in terms of the shares [n / s] withdrawn and left. *)
Lemma product_withdraw_conversion n s a b : drawn_part s n -> drawn64 a -> drawn64 b -> s <= 10 ^ 7 * n ->
  500 * (s * s) <= n * (s - n) * Z.min a b -> s * s <= (s - n) * (s - n) * Z.min a b ->
  withdraw_conversion ConstantProduct n s a b = Passed.
Proof.
  intros Hn Ha Hb H7 HK HR. pose proof (dpart _ _ Hn) as (Us & Un & Ln & Ms). pose proof (d64 _ Ha) as (Ua & La & _).
  pose proof (d64 _ Hb) as (Ub & Lb & _).
  assert (M1 : n * (s - n) * Z.min a b <= n * (s - n) * a) by (apply Z.mul_le_mono_nonneg_l; [apply Z.mul_nonneg_nonneg |]; lia).
  assert (M2 : n * (s - n) * Z.min a b <= n * (s - n) * b) by (apply Z.mul_le_mono_nonneg_l; [apply Z.mul_nonneg_nonneg |]; lia).
  assert (M3 : (s - n) * (s - n) * Z.min a b <= (s - n) * (s - n) * a) by (apply Z.mul_le_mono_nonneg_l; [apply Z.mul_nonneg_nonneg |]; lia).
  assert (M4 : (s - n) * (s - n) * Z.min a b <= (s - n) * (s - n) * b) by (apply Z.mul_le_mono_nonneg_l; [apply Z.mul_nonneg_nonneg |]; lia).
  unfold withdraw_conversion.
  assert (Hd : forall d, check_withdraw_token_conversion ConstantProduct n s a b d CONVERSION_BASIS_POINTS_GUARANTEE = Go tt).
  { intros d. apply (withdraw_conversion_check ConstantProduct 0); try assumption.
    - left. split; reflexivity.
    - rewrite Z.add_0_r. exact Hb.
    - rewrite Z.add_0_r. apply Z.div_le_upper_bound; [lia |]. apply Z.mul_le_mono_nonneg_r; lia.
    - rewrite Z.add_0_r. repeat split; lia.
    - rewrite Z.add_0_r. repeat split; lia. }
  rewrite (Hd AtoB). cbn [tbind]. rewrite (Hd BtoA). reflexivity.
Qed.

Lemma offset_withdraw_conversion_holds n s a b o : drawn_part s n -> drawn64 a -> drawn_sum b o -> s <= 10 ^ 7 * n ->
  500 * (s * s) <= n * (s - n) * Z.min a (b + o) -> s * s <= (s - n) * (s - n) * Z.min a (b + o) ->
  holds (offset_withdraw_conversion n s a b o).
Proof.
  intros Hn Ha (total & Ht & Ho & ->) H7 HK HR. pose proof (dpart _ _ Hn) as (Us & Un & Ln & Ms). pose proof (d64 _ Ha) as (Ua & La & _).
  pose proof (d64 _ Ht) as (Ut & Lt & Mt). unfold drawn in Ho.
  replace (total - o + o) with total in * by ring.
  assert (Uo : is_u64 o) by (unfold is_u64 in *; lia). assert (Ub : is_u64 (total - o)) by (unfold is_u64 in *; lia).
  assert (M1 : n * (s - n) * Z.min a total <= n * (s - n) * a) by (apply Z.mul_le_mono_nonneg_l; [apply Z.mul_nonneg_nonneg |]; lia).
  assert (M2 : n * (s - n) * Z.min a total <= n * (s - n) * total) by (apply Z.mul_le_mono_nonneg_l; [apply Z.mul_nonneg_nonneg |]; lia).
  assert (M3 : (s - n) * (s - n) * Z.min a total <= (s - n) * (s - n) * a) by (apply Z.mul_le_mono_nonneg_l; [apply Z.mul_nonneg_nonneg |]; lia).
  assert (M4 : (s - n) * (s - n) * Z.min a total <= (s - n) * (s - n) * total) by (apply Z.mul_le_mono_nonneg_l; [apply Z.mul_nonneg_nonneg |]; lia).
  unfold offset_withdraw_conversion. cbv zeta.
  rewrite tadd_eq by (unfold is_u64, u64_max, u128_max in *; lia). cbn [tbind].
  replace (total - o + o) with total by ring.
  apply assume_holds. intros _.
  apply shares_assumed; try assumption; try (unfold drawn64, drawn, is_u64 in *; lia); [right; reflexivity |].
  intros _ _. rewrite (like_both (Offset o) o);
    [| right; split; [reflexivity | exact Uo] | assumption .. | replace (total - o + o) with total by ring; exact Ut].
  unfold ratio_quote, share_of. replace (total - o + o) with total by ring.
  destruct (Z.eqb_spec s 0); [lia |]. cbn [unwrap tbind].
  apply assume_holds. intros A. apply Z.leb_le in A.
  assert (Hd : forall d, check_withdraw_token_conversion (Offset o) n s a (total - o) d CONVERSION_BASIS_POINTS_GUARANTEE = Go tt).
  { intros d. apply (withdraw_conversion_check (Offset o) o); try assumption; replace (total - o + o) with total by ring; try assumption.
    - right. split; [reflexivity | exact Uo].
    - repeat split; lia.
    - repeat split; lia. }
  rewrite (Hd AtoB). cbn [tbind]. rewrite (Hd BtoA). left. reflexivity.
Qed.
