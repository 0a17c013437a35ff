(** The square root of the spl-math numbers, used by the constant-product curve. *)
From Verif Require Import Ints Tactics SplMath ConstantProduct QuoteSpec QuoteFacts.

(** One integer Newton step towards the square root [r] of [N]. *)
Definition newton (N g : Z) : Z := (g + N / g) / 2.
Definition is_root (N r : Z) : Prop := 3 <= r /\ r * r <= N <= r * r + 2 * r.

Lemma newton_lower N r g : is_root N r -> 0 < g -> r <= newton N g.
Proof.
  intros [Hr HN] Hg. unfold newton.
  apply Z.div_le_lower_bound; [lia |].
  pose proof (Z.square_nonneg (g - r)).
  assert (2 * r - g <= N / g) by (apply Z.div_le_lower_bound; lia). lia.
Qed.

Lemma newton_upper N r g : is_root N r -> 0 < g ->
  2 * g * (newton N g - r) <= (g - r) * (g - r) + 2 * r.
Proof.
  intros [Hr HN] Hg. unfold newton.
  pose proof (Z.mul_div_le (g + N / g) 2 ltac:(lia)) as H2.
  pose proof (Z.mul_div_le N g Hg) as H1.
  set (q := N / g) in *. set (h := (g + q) / 2) in *.
  assert (g * (2 * h) <= g * (g + q)) by (apply Z.mul_le_mono_nonneg_l; lia). lia.
Qed.

(** The excess over the root is halved. *)
Lemma newton_half N r g : is_root N r -> r <= g -> 2 * (newton N g - r - 2) <= g - r - 2.
Proof.
  intros HN Hg. assert (Hr : 3 <= r) by apply HN.
  pose proof (newton_upper N r g HN ltac:(lia)) as H.
  set (e := newton N g - r) in *. set (f := g - r) in *.
  assert (2 * e <= f + 2); [| lia].
  apply Z.mul_le_mono_pos_l with (p := g); [lia |].
  assert (f * f <= g * f) by (apply Z.mul_le_mono_nonneg_r; unfold f; lia). lia.
Qed.

Lemma iter_lower N r n g : is_root N r -> r <= g -> r <= Nat.iter n (newton N) g.
Proof.
  intros HN Hg. assert (Hr : 3 <= r) by apply HN.
  induction n as [| n IH]; [exact Hg |]. simpl. apply newton_lower; [exact HN | lia].
Qed.

Lemma iter_half N r n g : is_root N r -> r <= g ->
  2 ^ Z.of_nat n * (Nat.iter n (newton N) g - r - 2) <= g - r - 2.
Proof.
  intros HN Hg. induction n as [| n IH]; [simpl Nat.iter; change (2 ^ Z.of_nat 0) with 1; lia |].
  rewrite Nat2Z.inj_succ, Z.pow_succ_r by lia. simpl Nat.iter.
  pose proof (newton_half N r _ HN (iter_lower N r n g HN Hg)) as H.
  assert (0 < 2 ^ Z.of_nat n) by (apply Z.pow_pos_nonneg; lia).
  set (P := 2 ^ Z.of_nat n) in *. set (a := newton N (Nat.iter n (newton N) g) - r - 2) in *.
  set (b := Nat.iter n (newton N) g - r - 2) in *.
  assert (P * (2 * a) <= P * b) by (apply Z.mul_le_mono_nonneg_l; lia). lia.
Qed.

(** Quadratic convergence: [k] correct bits become [2 * k + 1]. *)
Lemma newton_square N r g k : is_root N r -> 4 <= r -> 2 <= k -> r <= g -> 2 ^ k * (g - r - 2) <= r ->
  2 ^ (2 * k + 1) * (newton N g - r - 2) <= r.
Proof.
  intros HN H4 Hk Hg He. pose proof (newton_upper N r g HN ltac:(lia)) as H.
  set (e := newton N g - r) in *. set (f := g - r) in *.
  replace (2 ^ (2 * k + 1)) with (2 * (2 ^ k * 2 ^ k)) by (rewrite Z.pow_add_r, Z.pow_1_r by lia;
    replace (2 * k) with (k + k) by lia; rewrite Z.pow_add_r by lia; ring).
  assert (HP : 4 <= 2 ^ k) by (apply (Z.pow_le_mono_r 2 2 k); lia).
  set (P := 2 ^ k) in *. clearbody P.
  assert (Hf : 0 <= f) by (unfold f; lia).
  assert (Hge : r * e <= g * e \/ e < 0) by (destruct (Z_lt_dec e 0); [auto | left; apply Z.mul_le_mono_nonneg_r; lia]).
  clearbody e f.
  destruct (Z_le_dec e 2) as [Hle | Hgt].
  { assert (0 <= P * P) by nia. assert (2 * (P * P) * (e - 2) <= 0) by (apply Z.mul_nonneg_nonpos; lia). lia. }
  assert (H1 : 0 <= P * f <= r + 2 * P) by nia.
  assert (H2 : (P * f) * (P * f) <= (r + 2 * P) * (r + 2 * P)) by (apply Z.mul_le_mono_nonneg; lia).
  assert (H3 : 2 * (r * e) <= f * f + 2 * r) by lia.
  assert (H5 : P * P * (2 * (r * e)) <= P * P * (f * f + 2 * r)) by (apply Z.mul_le_mono_nonneg_l; nia).
  apply Z.mul_le_mono_pos_l with (p := r); [lia |].
  assert (H6 : P * 4 <= P * P) by nia.
  assert (H7 : r * (P * 4) <= r * (P * P)) by (apply Z.mul_le_mono_nonneg_l; lia).
  assert (H8 : 4 * (P * P) <= r * (P * P)) by (apply Z.mul_le_mono_nonneg_r; nia).
  lia.
Qed.

Lemma newton_settled N r g : is_root N r -> 4 <= r -> r <= g <= r + 2 -> r <= newton N g <= r + 1.
Proof.
  intros HN H4 Hg. split; [apply newton_lower; [exact HN | lia] |].
  pose proof (newton_upper N r g HN ltac:(lia)) as H.
  assert ((g - r) * (g - r) <= 4) by nia.
  set (e := newton N g - r) in *. assert (e < 2); [| unfold e in *; lia].
  apply Z.mul_lt_mono_pos_l with (p := 2 * g); lia.
Qed.

Lemma iter_settled N r n g : is_root N r -> 4 <= r -> r <= g <= r + 2 ->
  r <= Nat.iter (S n) (newton N) g <= r + 1.
Proof.
  intros HN H4 Hg. induction n as [| n IH]; [apply newton_settled; assumption |].
  change (Nat.iter (S (S n)) (newton N) g) with (newton N (Nat.iter (S n) (newton N) g)).
  apply newton_settled; [assumption | assumption | lia].
Qed.

Lemma iter_S A (f : A -> A) n x : Nat.iter (S n) f x = f (Nat.iter n f x).
Proof. reflexivity. Qed.

Lemma iter_add A (f : A -> A) n m x : Nat.iter (n + m) f x = Nat.iter n f (Nat.iter m f x).
Proof. induction n as [| n IH]; [reflexivity |]. simpl. rewrite IH. reflexivity. Qed.

(** 100 steps are enough for numbers of up to 170 bits. *)
Lemma newton_closes N r g : is_root N r -> 4 <= r < 2 ^ 150 -> r <= g -> 2 * (g - r) <= 2 ^ 71 * r ->
  r <= Nat.iter 78 (newton N) g <= r + 2.
Proof.
  intros HN Hr Hg Hgr.
  assert (Hsq : forall n k, (2 <= k) -> 2 ^ k * (Nat.iter n (newton N) g - r - 2) <= r ->
    2 ^ (2 * k + 1) * (Nat.iter (S n) (newton N) g - r - 2) <= r).
  { intros n k Hk Hn. apply newton_square; [exact HN | lia | exact Hk | apply iter_lower; assumption | exact Hn]. }
  assert (H72 : 2 ^ 2 * (Nat.iter 72 (newton N) g - r - 2) <= r).
  { pose proof (iter_half N r 72 g HN Hg) as H. change (Z.of_nat 72) with 72 in H.
    set (e := Nat.iter 72 (newton N) g - r - 2) in *. clearbody e.
    change (2 ^ 72) with 4722366482869645213696 in H. change (2 ^ 71) with 2361183241434822606848 in Hgr.
    change (2 ^ 2) with 4. lia. }
  apply Hsq in H72; [| lia]. apply Hsq in H72; [| lia]. apply Hsq in H72; [| lia].
  apply Hsq in H72; [| lia]. apply Hsq in H72; [| lia]. apply Hsq in H72; [| lia].
  match type of H72 with 2 ^ ?k * _ <= _ => let k' := eval vm_compute in k in change k with k' in H72 end.
  split; [apply iter_lower; assumption |].
  set (e := Nat.iter 78 (newton N) g - r - 2) in *.
  assert (Hp : 2 ^ 150 <= 2 ^ 191) by (apply Z.pow_le_mono_r; lia).
  assert (e < 1); [| unfold e in *; lia].
  apply Z.mul_lt_mono_pos_l with (p := 2 ^ 191); [apply Z.pow_pos_nonneg; lia | lia].
Qed.

Lemma newton_converges N r g : is_root N r -> 4 <= r < 2 ^ 150 -> r <= g -> 2 * (g - r) <= 2 ^ 71 * r ->
  r <= Nat.iter 99 (newton N) g <= r + 1 /\ r <= Nat.iter 100 (newton N) g <= r + 1.
Proof.
  intros HN Hr Hg Hgr. pose proof (newton_closes N r g HN Hr Hg Hgr) as H78.
  split; [change 99%nat with (21 + 78)%nat; rewrite iter_add; apply (iter_settled N r 20); [assumption | lia | assumption] |].
  change 100%nat with (22 + 78)%nat. rewrite iter_add. apply (iter_settled N r 21); [assumption | lia | assumption].
Qed.

Lemma pow170 : 2 ^ 170 = 1496577676626844588240573268701473812127674924007424. Proof. reflexivity. Qed.

Lemma spl_mul_one g : 0 <= g <= 2 ^ 171 -> spl_mul SPL_ONE g = Val g.
Proof.
  intros Hg. change (2 ^ 171) with (2 * 2 ^ 170) in Hg. rewrite pow170 in Hg.
  unfold spl_mul, SPL_ONE, SPL_HALF.
  rewrite mul_in_eq by (consts; lia). rewrite add_in_eq by (consts; lia). cbn [obind].
  rewrite cdiv_eq by discriminate. f_equal. symmetry. apply (Z.div_unique _ _ _ 500000000000); lia.
Qed.

Lemma spl_div_eq x y : 0 <= x <= 2 ^ 172 -> y <> 0 -> spl_div x y = Val ((x * SPL_ONE + SPL_HALF) / y).
Proof.
  intros Hx Hy. change (2 ^ 172) with (4 * 2 ^ 170) in Hx. rewrite pow170 in Hx.
  unfold spl_div. destruct (Z.eqb_spec y 0); [contradiction |]. unfold SPL_ONE, SPL_HALF.
  rewrite mul_in_eq by (consts; lia). rewrite add_in_eq by (consts; lia). cbn [obind].
  apply cdiv_eq. assumption.
Qed.

Lemma spl_half s : 0 <= s <= 2 ^ 172 -> spl_div s (2 * SPL_ONE) = Val (s / 2).
Proof.
  intros Hs. rewrite spl_div_eq by (try assumption; discriminate). f_equal. unfold SPL_ONE, SPL_HALF.
  pose proof (Z.div_mod s 2 ltac:(lia)). pose proof (Z.mod_pos_bound s 2 ltac:(lia)).
  symmetry. apply (Z.div_unique _ _ _ (s mod 2 * 1000000000000 + 500000000000)); lia.
Qed.

(** A step ends at most the square of its length above the root. *)
Lemma newton_square_le N g : 0 < g -> newton N g * newton N g <= N + (g - newton N g) * (g - newton N g).
Proof.
  intros Hg. unfold newton. pose proof (Z.mul_div_le N g Hg) as H1.
  pose proof (Z.mul_div_le (g + N / g) 2 ltac:(lia)) as H2.
  set (q := N / g) in *. set (h := (g + q) / 2) in *.
  assert (g * (2 * h) <= g * (g + q)) by (apply Z.mul_le_mono_nonneg_l; lia). lia.
Qed.

Lemma step_close N y r : 0 < y -> r <= y <= r + 1 -> r <= newton N y <= r + 1 ->
  newton N y * newton N y <= N + 10 ^ 4.
Proof.
  intros Hp Hy Hz. pose proof (newton_square_le N y Hp) as H. set (z := newton N y) in *. clearbody z.
  assert (D : y - z = -1 \/ y - z = 0 \/ y - z = 1) by lia. change (10 ^ 4) with 10000.
  destruct D as [D | [D | D]]; rewrite D in H; lia.
Qed.

Lemma sqrt_loop_ok n : forall x g r B, 0 <= x <= 2 ^ 170 -> is_root (x * SPL_ONE + SPL_HALF) r ->
  10 ^ 6 <= r -> r <= g <= B -> r + 2 <= B <= 2 ^ 171 ->
  exists g', spl_sqrt_loop n x g g = Val g' /\
    (r <= g' <= r + 1 /\ g' * g' <= x * SPL_ONE + SPL_HALF + 10 ^ 4 \/
     g' = Nat.iter n (newton (x * SPL_ONE + SPL_HALF)) g).
Proof.
  induction n as [| n IH]; intros x g r B Hx HN Hr Hg HB.
  - exists g. split; [reflexivity | right; reflexivity].
  - set (N := x * SPL_ONE + SPL_HALF) in *.
    pose proof pow170 as H170. change (2 ^ 171) with (2 * 2 ^ 170) in HB. change (10 ^ 6) with 1000000 in Hr.
    cbn [spl_sqrt_loop]. rewrite spl_mul_one by (change (2 ^ 171) with (2 * 2 ^ 170); lia). cbn [obind].
    rewrite spl_div_eq by (change (2 ^ 172) with (4 * 2 ^ 170); lia). fold N. cbn [obind].
    assert (Hq : 0 <= N / g <= 2 * 2 ^ 170).
    { assert (0 <= N) by (unfold N, SPL_ONE, SPL_HALF; lia). split; [apply Z.div_pos; lia |].
      apply Z.le_trans with (r + 2); [| lia]. apply Z.div_le_upper_bound; [lia |]. destruct HN as [_ HN].
      assert (r * (r + 2) <= g * (r + 2)) by (apply Z.mul_le_mono_nonneg_r; lia). lia. }
    unfold spl_add. rewrite add_in_eq by (consts; lia). cbn [obind].
    change (spl_new 2) with (Val (2 * SPL_ONE)). cbn [obind].
    rewrite spl_half by (change (2 ^ 172) with (4 * 2 ^ 170); lia). cbn [obind].
    change ((g + N / g) / 2) with (newton N g).
    pose proof (newton_lower N r g HN ltac:(lia)) as Hlo.
    pose proof (newton_half N r g HN ltac:(lia)) as Hhalf.
    pose proof (newton_upper N r g HN ltac:(lia)) as Hup.
    unfold spl_almost_eq. destruct (Z.ltb_spec (Z.abs (g - newton N g)) 100) as [Hc | Hc].
    + exists (newton N g). split; [reflexivity | left]. split; [split; [assumption |] |].
      2: { pose proof (newton_square_le N g ltac:(lia)) as Hs. fold N. change (10 ^ 4) with (100 * 100).
           rewrite <- (Z.abs_square (g - newton N g)) in Hs.
           assert (Z.abs (g - newton N g) * Z.abs (g - newton N g) <= 100 * 100) by (apply Z.mul_le_mono_nonneg; lia).
           lia. }
      set (e := newton N g - r) in *.
      assert (He : 0 <= g - r <= 202) by lia.
      assert ((g - r) * (g - r) <= 202 * 202) by (apply Z.mul_le_mono_nonneg; lia).
      assert (e < 2); [| lia]. apply Z.mul_lt_mono_pos_l with (p := 2 * g); lia.
    + destruct (IH x (newton N g) r B Hx HN Hr ltac:(lia) ltac:(change (2 ^ 171) with (2 * 2 ^ 170); lia))
        as [g' [E Hg']].
      exists g'. split; [exact E |]. destruct Hg' as [Hg' | Hg']; [left; exact Hg' | right].
      rewrite Hg'. change (newton (x * SPL_ONE + SPL_HALF)) with (newton N).
      replace (S n) with (n + 1)%nat by apply Nat.add_1_r. rewrite iter_add. reflexivity.
Qed.

Lemma sqrt_is_root N : 9 <= N -> is_root N (Z.sqrt N).
Proof.
  intros H. pose proof (Z.sqrt_spec N ltac:(lia)) as Hs. cbv zeta in Hs.
  assert (3 <= Z.sqrt N) by (apply Z.sqrt_le_square; lia). split; [assumption | lia].
Qed.

(** Numbers below 2^170 units of 10^-12 have a root accurate to one unit. *)
Lemma spl_sqrt_close x : 0 < x <= 2 ^ 170 ->
  exists g, spl_sqrt x = Val g /\ root12 x g /\ g * g <= x * 10 ^ 12 + 5 * 10 ^ 11 + 10 ^ 4.
Proof.
  intros Hx. unfold spl_sqrt, root12.
  change (10 ^ 12) with SPL_ONE. change (5 * 10 ^ 11) with SPL_HALF.
  set (N := x * SPL_ONE + SPL_HALF).
  change (spl_new 2) with (Val (2 * SPL_ONE)). change (spl_new 1) with (Val SPL_ONE). cbn [obind].
  pose proof pow170 as H170. assert (HO : SPL_ONE = 1000000000000) by reflexivity.
  assert (HH : SPL_HALF = 500000000000) by reflexivity.
  unfold spl_add. rewrite add_in_eq by (consts; lia). cbn [obind].
  rewrite spl_half by (change (2 ^ 172) with (4 * 2 ^ 170); lia). cbn [obind].
  destruct (Z.eqb_spec x 0) as [-> | _]; [lia |].
  assert (HN : is_root N (Z.sqrt N)) by (apply sqrt_is_root; unfold N; lia).
  set (r := Z.sqrt N) in *.
  assert (Hr6 : 10 ^ 6 <= r) by (apply Z.sqrt_le_square; change (10 ^ 6) with 1000000; unfold N; lia).
  change (10 ^ 6) with 1000000 in Hr6.
  set (G := (x + SPL_ONE) / 2).
  pose proof (Z.div_mod (x + SPL_ONE) 2 ltac:(lia)) as HG. fold G in HG.
  pose proof (Z.mod_pos_bound (x + SPL_ONE) 2 ltac:(lia)) as HGm.
  assert (HrG : r <= G).
  { apply Z.lt_succ_r. apply Z.square_lt_simpl_nonneg; [lia |].
    apply Z.le_lt_trans with N; [apply HN |].
    assert (H1 : (x + SPL_ONE + 1) * (x + SPL_ONE + 1) <= (2 * Z.succ G) * (2 * Z.succ G))
      by (apply Z.mul_le_mono_nonneg; lia).
    pose proof (Z.square_nonneg (x - SPL_ONE)) as H2. unfold N. rewrite HH. lia. }
  assert (Hru : r < 2 ^ 150).
  { apply Z.square_lt_simpl_nonneg; [apply Z.pow_nonneg; lia |].
    apply Z.le_lt_trans with N; [apply HN |]. unfold N. rewrite <- Z.pow_add_r by lia.
    change (2 ^ (150 + 150)) with (2 ^ 170 * 2 ^ 130).
    change (2 ^ 130) with 1361129467683753853853498429727072845824. lia. }
  destruct (sqrt_loop_ok 100 x G r (G + 2) ltac:(lia) HN Hr6 ltac:(lia)
    ltac:(change (2 ^ 171) with (2 * 2 ^ 170); lia)) as [g [E Hg]].
  exists g. split; [exact E |]. destruct Hg as [Hg | ->]; [exact Hg |].
  destruct (newton_converges N r G) as [H99 H100]; [exact HN | lia | exact HrG | |].
  2: { split; [exact H100 |]. fold N. clear - H99 H100 Hr6 HH.
       rewrite (iter_S _ (newton N) 99 G) in H100 |- *.
       set (y := Nat.iter 99 (newton N) G) in *. clearbody y. apply step_close with r; lia. }
  (* the first guess is at most 2^70 times the root *)
  assert (Hx70 : x + SPL_ONE <= 2 ^ 71 * r); [| lia].
  change (2 ^ 71) with 2361183241434822606848.
  destruct (Z_lt_dec x SPL_ONE) as [Hsmall | Hbig]; [lia |].
  destruct (Z_le_dec (x + SPL_ONE) (2361183241434822606848 * r)) as [| Hc]; [assumption | exfalso].
  set (X := x + SPL_ONE) in *.
  assert (H1 : X * SPL_ONE <= 4 * (r * r)).
  { destruct HN as [_ [_ HN]]. assert (3 * r <= r * r) by (apply Z.mul_le_mono_nonneg_r; lia).
    assert (r * 2 <= r * r) by (apply Z.mul_le_mono_nonneg_l; lia).
    assert (X * SPL_ONE <= 2 * x * SPL_ONE) by (apply Z.mul_le_mono_nonneg_r; unfold X; lia).
    unfold N in HN. lia. }
  assert (H2 : (2361183241434822606848 * r) * (2361183241434822606848 * r) <= X * X)
    by (apply Z.mul_le_mono_nonneg; lia).
  assert (H3 : X * X <= X * (2 * 2 ^ 170)) by (apply Z.mul_le_mono_nonneg_l; unfold X; lia).
  rewrite H170 in *. unfold X in *. rewrite HO in *. nia.
Qed.

Lemma spl_sqrt_exact x : 0 < x <= 2 ^ 170 -> exists g, spl_sqrt x = Val g /\ root12 x g.
Proof. intros Hx. destruct (spl_sqrt_close x Hx) as (g & E & H & _). exists g. split; assumption. Qed.

(** ** The constant-product curve *)

Lemma to_imprecise_whole_gen v : 0 <= v <= 4 * 2 ^ 170 -> spl_to_imprecise (v * SPL_ONE) = as_u128 v.
Proof.
  intros Hv. rewrite pow170 in Hv. unfold spl_to_imprecise, SPL_ONE, SPL_HALF.
  rewrite add_in_eq by (consts; lia). cbn [obind]. rewrite cdiv_eq by discriminate. cbn [obind].
  f_equal. symmetry. apply (Z.div_unique _ _ _ 500000000000); lia.
Qed.

Lemma ratio12 s y : 0 <= s <= 2 ^ 132 -> 0 < y -> spl_div (s * SPL_ONE) (y * SPL_ONE) = Val (s * SPL_ONE / y).
Proof.
  intros Hs Hy. rewrite spl_div_eq.
  - f_equal. unfold SPL_ONE, SPL_HALF. 
    pose proof (Z.div_mod (s * 1000000000000) y ltac:(lia)) as Hd.
    pose proof (Z.mod_pos_bound (s * 1000000000000) y Hy) as Hm.
    symmetry. apply (Z.div_unique _ _ _ (s * 1000000000000 mod y * 1000000000000 + 500000000000)); lia.
  - unfold SPL_ONE. change (2 ^ 132) with 5444517870735015415413993718908291383296 in Hs.
    change (2 ^ 172) with (4 * 2 ^ 170). rewrite pow170. lia.
  - unfold SPL_ONE. lia.
Qed.

Lemma spl_mul_whole n y : 0 <= n * y <= 2 ^ 200 -> spl_mul (n * SPL_ONE) y = Val (n * y).
Proof.
  intros H. unfold spl_mul, SPL_ONE, SPL_HALF. change (2 ^ 200) with
    1606938044258990275541962092341162602522202993782792835301376 in H.
  assert (E : n * 1000000000000 * y = n * y * 1000000000000) by ring.
  rewrite mul_in_eq by (consts; lia). rewrite add_in_eq by (consts; lia). cbn [obind].
  rewrite cdiv_eq by discriminate. f_equal. symmetry. apply (Z.div_unique _ _ _ 500000000000); lia.
Qed.

Lemma spl_floor_eq x : 0 <= x <= 2 ^ 172 -> 
  (let? f := spl_floor x in spl_to_imprecise f) = as_u128 (x / 10 ^ 12).
Proof.
  intros Hx. change (2 ^ 172) with (4 * 2 ^ 170) in Hx. rewrite pow170 in Hx.
  assert (HO : SPL_ONE = 1000000000000) by reflexivity. change (10 ^ 12) with SPL_ONE.
  unfold spl_floor. rewrite cdiv_eq by discriminate. cbn [obind].
  assert (Hq : 0 <= x / SPL_ONE <= x).
  { rewrite HO. split; [apply Z.div_pos; lia | apply Z.div_le_upper_bound; lia]. }
  rewrite mul_in_eq by (consts; lia). cbn [obind]. apply to_imprecise_whole_gen. rewrite pow170. lia.
Qed.

Lemma spl_ceiling_eq x : 0 <= x <= 2 ^ 172 ->
  (let? f := spl_ceiling x in spl_to_imprecise f) = as_u128 ((x + 10 ^ 12 - 1) / 10 ^ 12).
Proof.
  intros Hx. change (2 ^ 172) with (4 * 2 ^ 170) in Hx. rewrite pow170 in Hx.
  assert (HO : SPL_ONE = 1000000000000) by reflexivity. change (10 ^ 12) with SPL_ONE.
  unfold spl_ceiling. rewrite add_in_eq by (consts; lia). cbn [obind]. rewrite cdiv_eq by discriminate. cbn [obind].
  replace (x + (SPL_ONE - 1)) with (x + SPL_ONE - 1) by lia.
  assert (Hq : 0 <= (x + SPL_ONE - 1) / SPL_ONE <= x).
  { rewrite HO. split; [apply Z.div_pos; lia |].
    destruct (Z.eq_dec x 0) as [-> | ]; [reflexivity | apply Z.div_le_upper_bound; lia]. }
  rewrite mul_in_eq by (consts; lia). cbn [obind]. apply to_imprecise_whole_gen. rewrite pow170. lia.
Qed.

Lemma round_precise_eq r x : 0 <= x <= 2 ^ 140 -> round_precise r x = Val (round12 r x).
Proof.
  intros Hx. assert (Hx' : 0 <= x <= 2 ^ 172) by (pose proof (Z.pow_le_mono_r 2 140 172); lia).
  change (2 ^ 140) with 1393796574908163946345982392040522594123776 in Hx.
  unfold round_precise, round12. destruct r.
  - rewrite spl_floor_eq by assumption. apply as_u128_val. split; [reflexivity |].
    change (10 ^ 12) with 1000000000000. apply Z.div_le_upper_bound; consts; lia.
  - rewrite spl_ceiling_eq by assumption. apply as_u128_val. split; [reflexivity |].
    change (10 ^ 12) with 1000000000000. apply Z.div_le_upper_bound; consts; lia.
Qed.

Lemma cprod_deposit_exact source a b supply d r :
  is_u64 source -> 0 <= reserve_of d a b <= 2 * u64_max -> is_u64 supply ->
  reserve_of d a b = 0 /\ cprod_deposit_single source a b supply d r = Non \/
  0 < reserve_of d a b /\ exists t, cprod_deposit_single source a b supply d r = Val t /\
    product_deposit source (reserve_of d a b) supply r t.
Proof.
  intros Hs Hy Hn. unfold is_u64 in *. unfold cprod_deposit_single.
  change (match d with AtoB => a | BtoA => b end) with (reserve_of d a b).
  set (y := reserve_of d a b) in *. clearbody y.
  assert (HO : SPL_ONE = 1000000000000) by reflexivity.
  assert (H200 : 2 ^ 200 = 1606938044258990275541962092341162602522202993782792835301376) by reflexivity.
  assert (H132 : 2 ^ 132 = 5444517870735015415413993718908291383296) by reflexivity.
  rewrite spl_new_eq by (consts; lia). cbn [obind]. rewrite spl_new_eq by (consts; lia). cbn [obind].
  destruct (Z.eq_dec y 0) as [-> | Hy0]; [left; split; reflexivity | right]. split; [lia |].
  rewrite ratio12 by (consts; lia). cbn [obind].
  change (spl_new 1) with (Val SPL_ONE). cbn [obind].
  assert (Hq : 0 <= source * SPL_ONE / y <= source * SPL_ONE).
  { split; [apply Z.div_pos; lia | apply Z.div_le_upper_bound; nia]. }
  unfold spl_add, product_deposit. rewrite add_in_eq by (consts; lia). cbn [obind].
  change (10 ^ 12) with SPL_ONE.
  set (x := SPL_ONE + source * SPL_ONE / y) in *.
  destruct (spl_sqrt_exact x) as [g [Eg Hg]]; [rewrite pow170; consts; unfold x; lia |].
  rewrite Eg. cbn [obind].
  assert (Hg1 : SPL_ONE <= g).
  { destruct Hg as [Hg _]. refine (Z.le_trans _ _ _ _ Hg). apply Z.sqrt_le_square; [unfold x; lia | lia |].
    change (10 ^ 12) with SPL_ONE. change (5 * 10 ^ 11) with 500000000000. unfold x. lia. }
  assert (Hg2 : g <= 2 ^ 75).
  { destruct Hg as [_ Hg]. apply (Z.le_trans _ _ _ Hg).
    assert (Hlt : Z.sqrt (x * 10 ^ 12 + 5 * 10 ^ 11) < 2 ^ 75); [| lia].
    apply Z.sqrt_lt_square; [unfold x; lia | lia |]. change (10 ^ 12) with SPL_ONE. change (5 * 10 ^ 11) with 500000000000.
    change (2 ^ 75 * 2 ^ 75) with 1427247692705959881058285969449495136382746624. consts. unfold x. lia. }
  change (2 ^ 75) with 37778931862957161709568 in Hg2.
  unfold spl_sub. rewrite csub_eq by assumption. cbn [obind].
  rewrite spl_new_eq by (consts; lia). cbn [obind].
  pose proof (prod_le supply (g - SPL_ONE) u64_max 37778931862957161709568 Hn ltac:(lia)) as Hp.
  rewrite spl_mul_whole by (consts; lia). cbn [obind].
  rewrite round_precise_eq by (change (2 ^ 140) with 1393796574908163946345982392040522594123776; consts; lia).
  eexists. split; [reflexivity |]. exists g. split; [exact Hg |]. split; [exact Hg1 | reflexivity].
Qed.

Lemma cprod_withdraw_exact source a b supply d r :
  is_u64 source -> 0 <= reserve_of d a b <= 2 * u64_max -> is_u64 supply ->
  (reserve_of d a b = 0 \/ 10 ^ 12 < source * 10 ^ 12 / reserve_of d a b) /\
    cprod_withdraw_single source a b supply d r = Non \/
  0 < reserve_of d a b /\ source * 10 ^ 12 / reserve_of d a b <= 10 ^ 12 /\
    exists t, cprod_withdraw_single source a b supply d r = Val t /\
    product_withdraw source (reserve_of d a b) supply r t.
Proof.
  intros Hs Hy Hn. unfold is_u64 in *. unfold cprod_withdraw_single.
  change (match d with AtoB => a | BtoA => b end) with (reserve_of d a b).
  set (y := reserve_of d a b) in *. clearbody y.
  assert (HO : SPL_ONE = 1000000000000) by reflexivity.
  assert (H200 : 2 ^ 200 = 1606938044258990275541962092341162602522202993782792835301376) by reflexivity.
  assert (H132 : 2 ^ 132 = 5444517870735015415413993718908291383296) by reflexivity.
  change (10 ^ 12) with SPL_ONE.
  rewrite spl_new_eq by (consts; lia). cbn [obind]. rewrite spl_new_eq by (consts; lia). cbn [obind].
  destruct (Z.eq_dec y 0) as [-> | Hy0]; [left; split; [left |]; reflexivity |].
  rewrite ratio12 by (consts; lia). cbn [obind].
  change (spl_new 1) with (Val SPL_ONE). cbn [obind].
  assert (Hq : 0 <= source * SPL_ONE / y) by (apply Z.div_pos; lia).
  unfold spl_sub, csub.
  destruct (Z.leb_spec (source * SPL_ONE / y) SPL_ONE) as [Hle | Hgt]; cbn [obind]; [right | left; auto].
  split; [lia |]. split; [assumption |]. unfold product_withdraw. change (10 ^ 12) with SPL_ONE.
  set (x := SPL_ONE - source * SPL_ONE / y) in *.
  assert (Hx : 0 <= x <= SPL_ONE) by (unfold x; lia). clearbody x.
  assert (Hg : exists g, spl_sqrt x = Val g /\ (x = 0 /\ g = 0 \/ 0 < x /\ root12 x g) /\ 0 <= g <= SPL_ONE).
  { destruct (Z.eq_dec x 0) as [-> | Hx0].
    - exists 0. split; [reflexivity |]. split; [left; auto | lia].
    - destruct (Z.eq_dec x SPL_ONE) as [-> | Hx1].
      + exists SPL_ONE. split; [vm_compute; reflexivity |]. split; [right; split; [lia |] | lia].
        vm_compute. split; discriminate.
      + destruct (spl_sqrt_exact x) as [g [Eg Hg]]; [rewrite pow170; lia |].
        exists g. split; [exact Eg |]. split; [right; split; [lia | exact Hg] |].
        destruct Hg as [Hg1 Hg2]. split; [refine (Z.le_trans _ _ _ _ Hg1); apply Z.sqrt_nonneg |].
        apply (Z.le_trans _ _ _ Hg2).
        assert (Hlt : Z.sqrt (x * 10 ^ 12 + 5 * 10 ^ 11) < SPL_ONE); [| lia].
        apply Z.sqrt_lt_square; [lia | lia |]. change (10 ^ 12) with SPL_ONE.
        change (5 * 10 ^ 11) with 500000000000. rewrite HO in *. lia. }
  destruct Hg as [g [Eg [Hg Hg1]]]. rewrite Eg. cbn [obind].
  destruct (Z.leb_spec g SPL_ONE); [| lia]. cbn [obind].
  rewrite spl_new_eq by (consts; lia). cbn [obind].
  pose proof (prod_le supply (SPL_ONE - g) u64_max SPL_ONE Hn ltac:(lia)) as Hp.
  rewrite spl_mul_whole by (consts; lia). cbn [obind].
  rewrite round_precise_eq by (change (2 ^ 140) with 1393796574908163946345982392040522594123776; consts; lia).
  eexists. split; [reflexivity |]. exists g. split; [exact Hg |]. split; [exact Hg1 | reflexivity].
Qed.

(** The reported value is the geometric mean of the reserves. *)
Lemma cprod_value_exact a b : is_u64 a -> 0 <= b <= 2 * u64_max ->
  a * b = 0 /\ cprod_normalized_value a b = Val 0 \/
  0 < a * b /\ exists g, cprod_normalized_value a b = Val g /\ root12 (a * b * 10 ^ 12) g.
Proof.
  intros Ha Hb. unfold is_u64 in *. unfold cprod_normalized_value.
  assert (HO : SPL_ONE = 1000000000000) by reflexivity.
  assert (H200 : 2 ^ 200 = 1606938044258990275541962092341162602522202993782792835301376) by reflexivity.
  assert (H132 : 2 ^ 132 = 5444517870735015415413993718908291383296) by reflexivity.
  rewrite spl_new_eq by (consts; lia). cbn [obind]. rewrite spl_new_eq by (consts; lia). cbn [obind].
  pose proof (prod_le a b u64_max (2 * u64_max) Ha Hb) as Hab.
  rewrite spl_mul_whole by (consts; lia). cbn [obind]. rewrite Z.mul_assoc. change (10 ^ 12) with SPL_ONE.
  set (k := a * b) in *. clearbody k.
  destruct (Z.eq_dec k 0) as [-> | Hk]; [left; split; reflexivity | right]. split; [lia |].
  apply spl_sqrt_exact. rewrite pow170. consts. lia.
Qed.
