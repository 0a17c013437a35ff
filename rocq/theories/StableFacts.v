(** The stable curve computes the Newton iterations of QuoteSpec. *)
From Verif Require Import Ints Tactics SplMath ConstantProduct StableCurve CurveFacts QuoteSpec QuoteFacts RootFacts.

Lemma iter_fix A (f : A -> A) n x : f x = x -> Nat.iter n f x = x.
Proof. intros E. induction n as [| n IH]; [reflexivity |]. simpl. rewrite IH. exact E. Qed.
Lemma iter_r A (f : A -> A) n x : Nat.iter (S n) f x = Nat.iter n f (f x).
Proof. replace (S n) with (n + 1)%nat by apply Nat.add_1_r. rewrite iter_add. reflexivity. Qed.

Lemma u8_mul2 x : 2 * x <= u256_max -> checked_u8_mul x 2 = Val (2 * x).
Proof. intros H. unfold checked_u8_mul. simpl Nat.sub. cbn [repeat_add]. rewrite add_in_eq by lia. cbn [obind]. f_equal. lia. Qed.
Lemma u8_mul3 x : 0 <= x -> 3 * x <= u256_max -> checked_u8_mul x 3 = Val (3 * x).
Proof. intros H0 H. unfold checked_u8_mul. simpl Nat.sub. cbn [repeat_add].
  rewrite add_in_eq by lia. cbn [obind]. rewrite add_in_eq by lia. cbn [obind]. f_equal. lia. Qed.
Lemma u8_mul4 x : 0 <= x -> 4 * x <= u256_max -> checked_u8_mul x 4 = Val (4 * x).
Proof. intros H0 H. unfold checked_u8_mul. simpl Nat.sub. cbn [repeat_add].
  rewrite add_in_eq by lia. cbn [obind]. rewrite add_in_eq by lia. cbn [obind].
  rewrite add_in_eq by lia. cbn [obind]. f_equal. lia. Qed.

(** ** The invariant *)

Lemma d_product_bound a b d : 0 <= a -> 0 <= b -> 0 <= d ->
  0 <= d_product a b d /\ d_product a b d * (2 * (a + b) + 1) <= d * d * d.
Proof.
  intros Ha Hb Hd. unfold d_product.
  assert (H0 : 0 <= d * d / (2 * a + 1)) by (apply Z.div_pos; nia).
  pose proof (Z.mul_div_le (d * d) (2 * a + 1) ltac:(lia)) as H1.
  set (q := d * d / (2 * a + 1)) in *.
  assert (H2 : 0 <= q * d / (2 * b + 1)) by (apply Z.div_pos; nia).
  pose proof (Z.mul_div_le (q * d) (2 * b + 1) ltac:(lia)) as H3.
  set (p := q * d / (2 * b + 1)) in *. clearbody p q. split; [assumption |].
  assert (H4 : (2 * a + 1) * ((2 * b + 1) * p) <= (2 * a + 1) * (q * d)) by (apply Z.mul_le_mono_nonneg_l; lia).
  assert (H5 : (2 * a + 1) * q * d <= d * d * d) by (apply Z.mul_le_mono_nonneg_r; lia).
  assert (0 <= a * b * p) by (apply Z.mul_nonneg_nonneg; [apply Z.mul_nonneg_nonneg |]; assumption).
  lia.
Qed.

Lemma d_step_bounds l a b d : 2 <= l -> 0 <= a -> 0 <= b -> 0 < a + b -> 1 <= d <= 2 * (a + b) ->
  1 <= d_step l a b d <= 2 * (a + b) /\ d_product a b d <= d * d /\
  0 < (l - 1) * d + 3 * d_product a b d.
Proof.
  intros Hl Ha Hb Hs Hd. destruct (d_product_bound a b d Ha Hb ltac:(lia)) as [Hp0 Hp].
  unfold d_step. set (p := d_product a b d) in *. set (s := a + b) in *. clearbody p s.
  assert (Hden : 0 < (l - 1) * d + 3 * p).
  { assert (1 * 1 <= (l - 1) * d) by (apply Z.mul_le_mono_nonneg; lia). lia. }
  assert (Hpd : p <= d * d).
  { apply Z.mul_le_mono_pos_r with (p := 2 * s + 1); [lia |].
    apply Z.le_trans with (d * d * d); [assumption |].
    apply Z.mul_le_mono_nonneg_l; [nia | lia]. }
  split; [| split; assumption]. split.
  - apply Z.div_le_lower_bound; [assumption |].
    destruct (Z.eq_dec d 1) as [-> | Hd1].
    + assert (p = 0) by nia. subst p. nia.
    + assert (l * 1 <= l * s) by (apply Z.mul_le_mono_nonneg_l; lia).
      assert ((l - 1) * d <= (l * s) * d) by (apply Z.mul_le_mono_nonneg_r; lia).
      assert (p * 2 <= p * d) by (apply Z.mul_le_mono_nonneg_l; lia). lia.
  - apply Z.div_le_upper_bound; [assumption |].
    assert (Hsd : 0 <= s * d) by nia.
    assert ((s * d) * l <= (s * d) * (2 * (l - 1))) by (apply Z.mul_le_mono_nonneg_l; lia).
    assert (p * d <= p * (3 * s)) by (apply Z.mul_le_mono_nonneg_l; lia). lia.
Qed.

Lemma p68 : 2 ^ 68 = 295147905179352825856. Proof. reflexivity. Qed.

Lemma compute_d_loop_exact n l a b : 2 <= l <= u64_max -> 0 <= a -> 0 <= b -> 0 < a + b <= 2 ^ 67 ->
  forall d, 1 <= d <= 2 * (a + b) ->
  compute_d_loop n l (2 * a + 1) (2 * b + 1) (a + b) d = Val (Nat.iter n (d_step l a b) d).
Proof.
  intros Hl Ha Hb Hs. induction n as [| n IH]; intros d Hd; [reflexivity |].
  destruct (d_step_bounds l a b d ltac:(lia) Ha Hb ltac:(lia) Hd) as [Hst [Hpd Hden]].
  destruct (d_product_bound a b d Ha Hb ltac:(lia)) as [Hp0 _].
  change (2 ^ 67) with 147573952589676412928 in Hs.
  assert (Hdd : 0 <= d * d <= 295147905179352825856 * 295147905179352825856) by (apply prod_le; lia).
  cbn [compute_d_loop]. rewrite mul_in_eq by (consts; lia). cbn [obind].
  rewrite cdiv_eq by lia. cbn [obind].
  assert (Hq : 0 <= d * d / (2 * a + 1) <= d * d).
  { split; [apply Z.div_pos; lia | apply Z.div_le_upper_bound; nia]. }
  pose proof (prod_le (d * d / (2 * a + 1)) d (295147905179352825856 * 295147905179352825856)
    295147905179352825856 ltac:(lia) ltac:(lia)) as Hqd.
  rewrite mul_in_eq by (consts; lia). cbn [obind]. rewrite cdiv_eq by lia. cbn [obind].
  change (d * d / (2 * a + 1) * d / (2 * b + 1)) with (d_product a b d).
  rewrite iter_r. unfold d_step in Hst, IH |- *. set (p := d_product a b d) in *.
  unfold calculate_step.
  pose proof (prod_le l (a + b) u64_max 147573952589676412928 ltac:(lia) ltac:(lia)) as Hls.
  rewrite mul_in_eq by (consts; lia). cbn [obind]. rewrite u8_mul2 by (consts; lia). cbn [obind].
  rewrite add_in_eq by (consts; lia). cbn [obind].
  pose proof (prod_le (l * (a + b) + 2 * p) d (u64_max * 147573952589676412928 +
    2 * (295147905179352825856 * 295147905179352825856)) 295147905179352825856 ltac:(lia) ltac:(lia)) as Hnum.
  rewrite mul_in_eq by (consts; lia). cbn [obind]. rewrite csub_eq by lia. cbn [obind].
  pose proof (prod_le d (l - 1) 295147905179352825856 u64_max ltac:(lia) ltac:(lia)) as Hdl.
  rewrite mul_in_eq by (consts; lia). cbn [obind]. rewrite u8_mul3 by (consts; lia). cbn [obind].
  rewrite add_in_eq by (consts; lia). cbn [obind]. rewrite (Z.mul_comm d (l - 1)).
  rewrite cdiv_eq by lia. cbn [obind].
  destruct (Z.eqb_spec ((l * (a + b) + 2 * p) * d / ((l - 1) * d + 3 * p)) d) as [E | E].
  - rewrite iter_fix; [reflexivity |]. rewrite E. unfold d_step. fold p. exact E.
  - apply IH. exact Hst.
Qed.

Lemma iter_d_bounds n l a b : 2 <= l -> 0 <= a -> 0 <= b -> 0 < a + b ->
  1 <= Nat.iter n (d_step l a b) (a + b) <= 2 * (a + b).
Proof.
  intros Hl Ha Hb Hs. induction n as [| n IH]; [simpl Nat.iter; lia |].
  simpl Nat.iter. apply d_step_bounds; assumption.
Qed.

Lemma invariant_d_zero l : invariant_d l 0 0 = 0.
Proof. unfold invariant_d. apply iter_fix. unfold d_step. rewrite !Z.mul_0_r. reflexivity. Qed.

Lemma invariant_d_bounds l a b : 2 <= l -> 0 <= a -> 0 <= b ->
  0 <= invariant_d l a b <= 2 * (a + b) /\ (0 < a + b -> 1 <= invariant_d l a b).
Proof.
  intros Hl Ha Hb. destruct (Z.eq_dec (a + b) 0) as [E | E].
  - assert (a = 0 /\ b = 0) as [-> ->] by lia. rewrite invariant_d_zero. lia.
  - pose proof (iter_d_bounds 32 l a b Hl Ha Hb ltac:(lia)). unfold invariant_d. lia.
Qed.

Local Opaque d_step.

(** The invariant is computed for all 64-bit leverages and reserves. *)
Lemma compute_d_exact l a b : 2 <= l <= u64_max -> 0 <= a -> 0 <= b -> a + b <= 2 ^ 67 ->
  compute_d l a b = Val (invariant_d l a b).
Proof.
  intros Hl Ha Hb Hs. pose proof (invariant_d_bounds l a b ltac:(lia) Ha Hb) as [HD _].
  unfold compute_d. change (2 ^ 67) with 147573952589676412928 in Hs.
  rewrite u8_mul2 by (consts; lia). cbn [obind]. rewrite add_in_eq by (consts; lia). cbn [obind].
  rewrite u8_mul2 by (consts; lia). cbn [obind]. rewrite add_in_eq by (consts; lia). cbn [obind].
  rewrite add_in_eq by (consts; lia). cbn [obind].
  destruct (Z.eqb_spec (a + b) 0) as [E | E].
  - assert (a = 0 /\ b = 0) as [-> ->] by lia. rewrite invariant_d_zero. reflexivity.
  - rewrite compute_d_loop_exact; [| assumption | lia | lia | change (2 ^ 67) with 147573952589676412928; lia | lia].
    assert (Ei : Nat.iter ITERATIONS (d_step l a b) (a + b) = invariant_d l a b) by reflexivity.
    rewrite Ei. cbn [obind]. unfold try_u128. destruct (Z.leb_spec (invariant_d l a b) u128_max); [reflexivity | consts; lia].
Qed.

(** ** The other reserve *)

Lemma new_dest_loop_iff n l x d y0 y : 2 <= l -> 0 < x <= 2 ^ 80 -> 0 <= d <= 2 ^ 80 -> 0 <= y0 ->
  new_dest_loop n (x + d / l) (d * d * d / (4 * x * l)) d y0 = Val y <->
  y = Nat.iter n (y_step l x d) y0 /\
  forall k, (k < n)%nat -> 0 < y_den l x d (Nat.iter k (y_step l x d) y0) /\
                           y_num l x d (Nat.iter k (y_step l x d) y0) <= u256_max.
Proof.
  intros Hl Hx Hd. revert y0.
  assert (Hc : 0 <= d * d * d / (4 * x * l)) by (apply Z.div_pos; [nia | nia]).
  assert (Hb : 0 <= d / l <= d) by (split; [apply Z.div_pos; lia | apply Z.div_le_upper_bound; nia]).
  change (2 ^ 80) with 1208925819614629174706176 in *.
  induction n as [| n IH]; intros y0 Hy0.
  - cbn [new_dest_loop]. simpl Nat.iter. split; [intros E; injection E as <-; split; [reflexivity | lia] |].
    intros [-> _]. reflexivity.
  - cbn [new_dest_loop]. unfold checked_u8_power. simpl Nat.sub. cbn [repeat_mul].
    assert (Hsplit : forall P : nat -> Prop, (forall k, (k < S n)%nat -> P k) <-> P O /\ (forall k, (k < n)%nat -> P (S k))).
    { intros P. split; [intros H; split; [apply H; lia | intros k Hk; apply H; lia] |].
      intros [H0 H1] [| k] Hk; [exact H0 | apply H1; lia]. }
    rewrite Hsplit. clear Hsplit. change (Nat.iter 0 (y_step l x d) y0) with y0.
    rewrite iter_r.
    assert (Hall : (forall k, (k < n)%nat -> 0 < y_den l x d (Nat.iter (S k) (y_step l x d) y0) /\
                           y_num l x d (Nat.iter (S k) (y_step l x d) y0) <= u256_max) <->
                   (forall k, (k < n)%nat -> 0 < y_den l x d (Nat.iter k (y_step l x d) (y_step l x d y0)) /\
                           y_num l x d (Nat.iter k (y_step l x d) (y_step l x d y0)) <= u256_max)).
    { split; intros H k Hk; specialize (H k Hk); rewrite iter_r in *; exact H. }
    rewrite Hall. clear Hall.
    set (c := d * d * d / (4 * x * l)) in *.
    assert (En : y_num l x d y0 = y0 * y0 + c) by reflexivity.
    assert (Hyy : 0 <= y0 * y0) by nia.
    destruct (Z_le_dec (y0 * y0 + c) u256_max) as [Hov | Hov].
    2:{ split; [| intros [_ [[_ H] _]]; lia].
        intros H. exfalso. apply obind_val in H. destruct H as [v [H1 H2]].
        apply obind_val in H1. destruct H1 as [v1 [H1 H1']]. injection H1' as <-.
        apply mul_in_val in H1. destruct H1 as [-> H1].
        apply obind_val in H2. destruct H2 as [v2 [H2 _]]. apply add_in_val in H2. lia. }
    assert (Hy128 : y0 < 2 ^ 128).
    { apply Z.square_lt_simpl_nonneg; [apply Z.pow_nonneg; lia |]. rewrite <- Z.pow_add_r by lia.
      change (2 ^ (128 + 128)) with (u256_max + 1). lia. }
    change (2 ^ 128) with (u128_max + 1) in Hy128.
    rewrite mul_in_eq by lia. cbn [obind]. rewrite add_in_eq by lia. cbn [obind].
    rewrite u8_mul2 by (consts; lia). cbn [obind]. rewrite add_in_eq by (consts; lia). cbn [obind].
    assert (Ed : y_den l x d y0 = 2 * y0 + (x + d / l) - d) by reflexivity.
    unfold csub. destruct (Z.leb_spec d (2 * y0 + (x + d / l))) as [Hden | Hden]; cbn [obind].
    2:{ split; [discriminate | intros [_ [[H _] _]]; lia]. }
    unfold cdiv. destruct (Z.eqb_spec (2 * y0 + (x + d / l) - d) 0) as [Hz | Hz]; cbn [obind].
    1:{ split; [discriminate | intros [_ [[H _] _]]; lia]. }
    change ((y0 * y0 + c) / (2 * y0 + (x + d / l) - d)) with (y_step l x d y0).
    assert (Hy1 : 0 <= y_step l x d y0) by (unfold y_step; apply Z.div_pos; [unfold y_num; fold c; lia | lia]).
    destruct (Z.eqb_spec (y_step l x d y0) y0) as [E | E].
    + rewrite E. split.
      * intros H. injection H as <-. rewrite iter_fix by exact E. split; [reflexivity |].
        split; [lia |]. intros k _. rewrite iter_fix by exact E. lia.
      * intros [-> _]. rewrite iter_fix by exact E. reflexivity.
    + rewrite IH by exact Hy1. split.
      * intros [H1 H2]. split; [exact H1 |]. split; [lia | exact H2].
      * intros [H1 [_ H2]]. split; assumption.
Qed.

Local Opaque y_step.

Lemma new_dest_iff l x d y : 2 <= l <= u64_max -> 0 <= x <= 2 ^ 80 -> 0 <= d <= 2 ^ 80 ->
  compute_new_destination_amount l x d = Val y <-> other_reserve l x d y.
Proof.
  intros Hl Hx Hd. unfold compute_new_destination_amount, other_reserve.
  assert (H80 : 2 ^ 80 = 1208925819614629174706176) by reflexivity.
  unfold checked_u8_power. simpl Nat.sub. cbn [repeat_mul].
  pose proof (prod_le d d _ _ Hd Hd) as Hdd.
  pose proof (prod_le (d * d) d _ _ Hdd Hd) as Hddd. rewrite H80 in *.
  rewrite mul_in_eq by (consts; lia). cbn [obind]. rewrite mul_in_eq by (consts; lia). cbn [obind].
  rewrite u8_mul4 by (consts; lia). cbn [obind].
  pose proof (prod_le (4 * x) l (4 * 1208925819614629174706176) u64_max ltac:(lia) ltac:(lia)) as Hxl.
  rewrite mul_in_eq by (consts; lia). cbn [obind].
  destruct (Z.eq_dec x 0) as [-> | Hx0].
  { rewrite Z.mul_0_r, Z.mul_0_l. cbn [cdiv Z.eqb obind]. split; [discriminate | intros [H _]; contradiction]. }
  rewrite cdiv_eq by nia. cbn [obind]. rewrite cdiv_eq by lia. cbn [obind].
  assert (Hb : 0 <= d / l <= d) by (split; [apply Z.div_pos; lia | apply Z.div_le_upper_bound; nia]).
  rewrite add_in_eq by (consts; lia). cbn [obind].
  rewrite obind_val. setoid_rewrite new_dest_loop_iff; try lia.
  unfold try_u128. split.
  - intros [v [[-> Hk] Hv]]. destruct (Z.leb_spec (Nat.iter ITERATIONS (y_step l x d) d) u128_max); [| discriminate].
    injection Hv as <-. split; [assumption |]. split; [reflexivity |]. split; [assumption | exact Hk].
  - intros [_ [Ey [Hy Hk]]]. exists y. split; [split; [exact Ey | exact Hk] |].
    destruct (Z.leb_spec y u128_max); [reflexivity | lia].
Qed.

(** Swaps. *)
Lemma stable_swap_exact amp source ss sd src dst : 
  is_u64 amp -> is_u64 source -> is_u64 ss -> is_u64 sd ->
  stable_swap amp source ss sd = Val (src, dst) <-> stable_swap_quote amp source ss sd src dst.
Proof.
  intros Ham Hs Hss Hsd. unfold is_u64 in *. unfold stable_swap, stable_swap_quote, N_COINS.
  unfold mul_in. rewrite (Z.mul_comm amp 2).
  destruct (Z.leb_spec (2 * amp) u64_max) as [Hl | Hl]; cbn [obind].
  2:{ split; [discriminate | intros [_ [H _]]; lia]. }
  rewrite add_in_eq by (consts; lia). cbn [obind].
  destruct (Z.eq_dec amp 0) as [-> | Ha0].
  { split; [| intros [H _]; lia]. intros H. exfalso. change (2 * 0) with 0 in H.
    apply obind_val in H. destruct H as [v [_ H]]. apply obind_val in H. destruct H as [y [H _]].
    unfold compute_new_destination_amount in H.
    apply obind_val in H. destruct H as [v1 [_ H]]. apply obind_val in H. destruct H as [v2 [_ H]].
    apply obind_val in H. destruct H as [v3 [H3 H]]. apply mul_in_val in H3. destruct H3 as [-> _].
    rewrite Z.mul_0_r in H. discriminate H. }
  rewrite compute_d_exact by (change (2 ^ 67) with 147573952589676412928; consts; lia). cbn [obind].
  pose proof (invariant_d_bounds (2 * amp) ss sd ltac:(lia) ltac:(lia) ltac:(lia)) as [HD _].
  rewrite obind_val. setoid_rewrite new_dest_iff;
    try (change (2 ^ 80) with 1208925819614629174706176; consts; lia).
  split.
  - intros [y [Hy H]]. unfold csub in H. destruct (Z.leb_spec y sd); [| discriminate H]. cbn [obind] in H.
    injection H as <- <-. split; [lia |]. split; [lia |]. split; [reflexivity |].
    split; [lia |]. replace (sd - (sd - y)) with y by lia. exact Hy.
  - intros [_ [_ [-> [Hd Hy]]]]. exists (sd - dst). split; [exact Hy |].
    rewrite csub_eq by lia. cbn [obind]. do 2 f_equal. lia.
Qed.

Local Opaque invariant_d.

Lemma stable_lev_zero a b : 0 < a + b -> compute_d 0 a b = Non.
Proof.
  intros Hs. destruct (compute_d 0 a b) as [v | |] eqn:E; [exfalso | reflexivity | exfalso].
  - unfold compute_d, ITERATIONS in E.
    apply obind_val in E. destruct E as [v1 [_ H]]. apply obind_val in H. destruct H as [v2 [_ H]].
    apply obind_val in H. destruct H as [v3 [_ H]]. apply obind_val in H. destruct H as [v4 [_ H]].
    apply obind_val in H. destruct H as [v5 [H5 H]]. apply add_in_val in H5. destruct H5 as [-> _].
    destruct (Z.eqb_spec (a + b) 0) as [E | E]; [lia |].
    apply obind_val in H. destruct H as [v6 [H _]]. cbn [compute_d_loop] in H.
    apply obind_val in H. destruct H as [v7 [_ H]]. apply obind_val in H. destruct H as [v8 [_ H]].
    apply obind_val in H. destruct H as [v9 [_ H]]. apply obind_val in H. destruct H as [v10 [_ H]].
    apply obind_val in H. destruct H as [v11 [H _]]. unfold calculate_step in H.
    apply obind_val in H. destruct H as [w1 [_ H]]. apply obind_val in H. destruct H as [w2 [_ H]].
    apply obind_val in H. destruct H as [w3 [_ H]]. apply obind_val in H. destruct H as [w4 [_ H]].
    apply obind_val in H. destruct H as [w5 [H _]]. discriminate H.
  - exact (compute_d_no_panic 0 a b E).
Qed.

(** The tail shared by both directions. *)
Lemma share_floor change supply d0 : 0 <= change <= 2 ^ 67 -> is_u64 supply -> 0 <= d0 ->
  (let? s := spl_new supply in let? m := spl_mul (change * SPL_ONE) s in
   let? final := spl_div m (d0 * SPL_ONE) in let? f := spl_floor final in spl_to_imprecise f) =
  if d0 =? 0 then Non else
  if change * supply / d0 <=? u128_max then Val (change * supply / d0) else Panic.
Proof.
  intros Hc Hs Hd. unfold is_u64 in *. change (2 ^ 67) with 147573952589676412928 in Hc.
  assert (HO : SPL_ONE = 1000000000000) by reflexivity.
  assert (H200 : 2 ^ 200 = 1606938044258990275541962092341162602522202993782792835301376) by reflexivity.
  assert (H132 : 2 ^ 132 = 5444517870735015415413993718908291383296) by reflexivity.
  rewrite spl_new_eq by (consts; lia). cbn [obind].
  pose proof (prod_le change supply _ _ Hc Hs) as Hcs.
  rewrite spl_mul_whole by (consts; lia). cbn [obind]. rewrite Z.mul_assoc.
  destruct (Z.eqb_spec d0 0) as [-> | Hd0]; [reflexivity |].
  rewrite ratio12 by (consts; lia). cbn [obind].
  assert (Hq : 0 <= change * supply * SPL_ONE / d0 <= change * supply * SPL_ONE).
  { split; [apply Z.div_pos; lia | apply Z.div_le_upper_bound; nia]. }
  rewrite spl_floor_eq by (change (2 ^ 172) with (4 * 2 ^ 170); rewrite pow170; consts; lia).
  change (10 ^ 12) with SPL_ONE.
  rewrite Z.div_div by lia. rewrite (Z.mul_comm d0). rewrite <- Z.div_div by lia.
  rewrite Z.div_mul by discriminate. reflexivity.
Qed.

Lemma share_ceil change supply d0 : 0 <= change <= 2 ^ 67 -> is_u64 supply -> 0 <= d0 ->
  (let? s := spl_new supply in let? m := spl_mul (change * SPL_ONE) s in
   let? final := spl_div m (d0 * SPL_ONE) in let? f := spl_ceiling final in spl_to_imprecise f) =
  if d0 =? 0 then Non else
  if round12 Ceiling (change * supply * 10 ^ 12 / d0) <=? u128_max
  then Val (round12 Ceiling (change * supply * 10 ^ 12 / d0)) else Panic.
Proof.
  intros Hc Hs Hd. unfold is_u64 in *. change (2 ^ 67) with 147573952589676412928 in Hc.
  assert (HO : SPL_ONE = 1000000000000) by reflexivity.
  assert (H200 : 2 ^ 200 = 1606938044258990275541962092341162602522202993782792835301376) by reflexivity.
  assert (H132 : 2 ^ 132 = 5444517870735015415413993718908291383296) by reflexivity.
  rewrite spl_new_eq by (consts; lia). cbn [obind].
  pose proof (prod_le change supply _ _ Hc Hs) as Hcs.
  rewrite spl_mul_whole by (consts; lia). cbn [obind]. rewrite Z.mul_assoc.
  destruct (Z.eqb_spec d0 0) as [-> | Hd0]; [reflexivity |].
  rewrite ratio12 by (consts; lia). cbn [obind].
  assert (Hq : 0 <= change * supply * SPL_ONE / d0 <= change * supply * SPL_ONE).
  { split; [apply Z.div_pos; lia | apply Z.div_le_upper_bound; nia]. }
  rewrite spl_ceiling_eq by (change (2 ^ 172) with (4 * 2 ^ 170); rewrite pow170; consts; lia).
  reflexivity.
Qed.

Lemma new_inv l a b : 2 <= l -> 0 <= a -> 0 <= b -> a + b <= 2 ^ 66 ->
  spl_new (invariant_d l a b) = Val (invariant_d l a b * SPL_ONE) /\ 0 <= invariant_d l a b <= 2 ^ 67.
Proof.
  intros Hl Ha Hb Hs. pose proof (invariant_d_bounds l a b Hl Ha Hb) as [HD _].
  change (2 ^ 67) with (2 * 2 ^ 66). split; [| lia]. apply spl_new_eq.
  change (2 ^ 66) with 73786976294838206464 in *. change (2 ^ 200) with
    1606938044258990275541962092341162602522202993782792835301376. lia.
Qed.

Lemma sub_whole x y : (y <= x -> spl_sub (x * SPL_ONE) (y * SPL_ONE) = Val ((x - y) * SPL_ONE)) /\
  (x < y -> spl_sub (x * SPL_ONE) (y * SPL_ONE) = Non).
Proof.
  unfold spl_sub, csub, SPL_ONE. destruct (Z.leb_spec (y * 1000000000000) (x * 1000000000000)); split; intros; try lia;
    try reflexivity. f_equal. lia.
Qed.

Lemma stable_deposit_exact amp source a b supply d :
  is_u64 amp -> is_u64 source -> is_u64 a -> is_u64 b -> is_u64 supply ->
  stable_deposit_single amp source a b supply d = stable_single_quote amp source a b supply d true.
Proof.
  intros Ham Hs Ha Hb Hn. assert (Hn' := Hn). unfold is_u64 in Ham, Hs, Ha, Hb, Hn'.
  unfold stable_deposit_single, stable_single_quote.
  destruct (Z.eqb_spec source 0) as [_ | Hs0]; [reflexivity |].
  unfold N_COINS, mul_in at 1. rewrite (Z.mul_comm amp 2). cbn [negb andb].
  rewrite orb_false_r. rewrite (Z.leb_antisym u64_max).
  destruct (Z.ltb_spec u64_max (2 * amp)) as [Hl | Hl]; cbn [negb obind]; [rewrite orb_true_r; reflexivity |].
  rewrite orb_false_r. destruct (Z.eqb_spec amp 0) as [-> | Ha0].
  { change (2 * 0) with 0. destruct (Z.eq_dec (a + b) 0) as [E | E].
    - assert (a = 0 /\ b = 0) as [-> ->] by lia. change (compute_d 0 0 0) with (Val 0). cbn [obind].
      change (spl_new 0) with (Val 0). cbn [obind].
      destruct d; rewrite add_in_eq by (consts; lia); cbn [obind]; rewrite stable_lev_zero by lia; reflexivity.
    - rewrite stable_lev_zero by lia. reflexivity. }
  assert (H66 : 2 ^ 66 = 73786976294838206464) by reflexivity.
  assert (H67 : 2 ^ 67 = 147573952589676412928) by reflexivity.
  rewrite compute_d_exact by (consts; lia). cbn [obind].
  destruct (new_inv (2 * amp) a b ltac:(lia) ltac:(lia) ltac:(lia) ltac:(consts; lia)) as [E0 B0].
  rewrite E0. cbn [obind].
  destruct d; cbv beta iota; rewrite add_in_eq by (consts; lia); cbn [obind];
    rewrite compute_d_exact by (consts; lia); cbn [obind].
  - destruct (new_inv (2 * amp) (a + source) b ltac:(lia) ltac:(lia) ltac:(lia) ltac:(consts; lia)) as [E1 B1].
    rewrite E1. cbn [obind].
    set (d0 := invariant_d (2 * amp) a b) in *. set (d1 := invariant_d (2 * amp) (a + source) b) in *.
    destruct (sub_whole d1 d0) as [Hge Hlt].
    destruct (Z.ltb_spec (d1 - d0) 0) as [Hc | Hc].
    + rewrite Hlt by lia. rewrite orb_true_r. reflexivity.
    + rewrite Hge by lia. cbn [obind]. rewrite orb_false_r. apply share_floor; [lia | assumption | lia].
  - destruct (new_inv (2 * amp) (b + source) a ltac:(lia) ltac:(lia) ltac:(lia) ltac:(consts; lia)) as [E1 B1].
    rewrite E1. cbn [obind].
    set (d0 := invariant_d (2 * amp) a b) in *. set (d1 := invariant_d (2 * amp) (b + source) a) in *.
    destruct (sub_whole d1 d0) as [Hge Hlt].
    destruct (Z.ltb_spec (d1 - d0) 0) as [Hc | Hc].
    + rewrite Hlt by lia. rewrite orb_true_r. reflexivity.
    + rewrite Hge by lia. cbn [obind]. rewrite orb_false_r. apply share_floor; [lia | assumption | lia].
Qed.

Lemma stable_withdraw_exact amp source a b supply d :
  is_u64 amp -> is_u64 source -> 0 <= a <= 2 * u64_max -> 0 <= b <= 2 * u64_max -> is_u64 supply ->
  stable_withdraw_single amp source a b supply d = stable_single_quote amp source a b supply d false.
Proof.
  intros Ham Hs Ha Hb Hn. assert (Hn' := Hn). unfold is_u64 in Ham, Hs, Hn'.
  unfold stable_withdraw_single, stable_single_quote.
  destruct (Z.eqb_spec source 0) as [_ | Hs0]; [reflexivity |].
  unfold N_COINS, mul_in at 1. rewrite (Z.mul_comm amp 2). cbn [negb andb].
  rewrite (Z.leb_antisym u64_max).
  destruct (Z.ltb_spec u64_max (2 * amp)) as [Hl | Hl]; cbn [negb obind]; [rewrite orb_true_r; reflexivity |].
  rewrite orb_false_r. destruct (Z.eqb_spec amp 0) as [-> | Ha0].
  { change (2 * 0) with 0. destruct (Z.eq_dec (a + b) 0) as [E | E].
    - assert (a = 0 /\ b = 0) as [-> ->] by lia. change (compute_d 0 0 0) with (Val 0). cbn [obind].
      change (spl_new 0) with (Val 0). cbn [obind].
      unfold csub. destruct d; destruct (Z.leb_spec source 0); try lia; reflexivity.
    - rewrite stable_lev_zero by lia. reflexivity. }
  cbn [orb].
  assert (H66 : 2 ^ 66 = 73786976294838206464) by reflexivity.
  assert (H67 : 2 ^ 67 = 147573952589676412928) by reflexivity.
  rewrite compute_d_exact by (consts; lia). cbn [obind].
  destruct (new_inv (2 * amp) a b ltac:(lia) ltac:(lia) ltac:(lia) ltac:(consts; lia)) as [E0 B0].
  rewrite E0. cbn [obind].
  destruct d; cbv beta iota; cbn [reserve_of]; unfold csub.
  - rewrite (Z.leb_antisym a). destruct (Z.ltb_spec a source) as [Hw | Hw]; cbn [negb obind]; [reflexivity |].
    rewrite compute_d_exact by (consts; lia). cbn [obind].
    destruct (new_inv (2 * amp) (a - source) b ltac:(lia) ltac:(lia) ltac:(lia) ltac:(consts; lia)) as [E1 B1].
    rewrite E1. cbn [obind]. replace (a + - source) with (a - source) by lia.
    set (d0 := invariant_d (2 * amp) a b) in *. set (d1 := invariant_d (2 * amp) (a - source) b) in *.
    destruct (sub_whole d0 d1) as [Hge Hlt].
    destruct (Z.ltb_spec (d0 - d1) 0) as [Hc | Hc].
    + rewrite Hlt by lia. rewrite orb_true_r. reflexivity.
    + rewrite Hge by lia. cbn [obind]. rewrite orb_false_r. apply share_ceil; [lia | assumption | lia].
  - rewrite (Z.leb_antisym b). destruct (Z.ltb_spec b source) as [Hw | Hw]; cbn [negb obind]; [reflexivity |].
    rewrite compute_d_exact by (consts; lia). cbn [obind].
    destruct (new_inv (2 * amp) (b - source) a ltac:(lia) ltac:(lia) ltac:(lia) ltac:(consts; lia)) as [E1 B1].
    rewrite E1. cbn [obind]. replace (b + - source) with (b - source) by lia.
    set (d0 := invariant_d (2 * amp) a b) in *. set (d1 := invariant_d (2 * amp) (b - source) a) in *.
    destruct (sub_whole d0 d1) as [Hge Hlt].
    destruct (Z.ltb_spec (d0 - d1) 0) as [Hc | Hc].
    + rewrite Hlt by lia. rewrite orb_true_r. reflexivity.
    + rewrite Hge by lia. cbn [obind]. rewrite orb_false_r. apply share_ceil; [lia | assumption | lia].
Qed.

Lemma stable_value_exact amp a b : is_u64 amp -> is_u64 a -> is_u64 b ->
  stable_normalized_value amp a b =
  if u64_max <? 2 * amp then Non
  else if (amp =? 0) && (0 <? a + b) then Non
  else Val (invariant_d (2 * amp) a b * 10 ^ 12).
Proof.
  intros Ham Ha Hb. unfold is_u64 in *. unfold stable_normalized_value, N_COINS, mul_in at 1.
  rewrite (Z.mul_comm amp 2). rewrite (Z.leb_antisym u64_max). change (10 ^ 12) with SPL_ONE.
  destruct (Z.ltb_spec u64_max (2 * amp)) as [Hl | Hl]; cbn [negb obind]; [reflexivity |].
  assert (H66 : 2 ^ 66 = 73786976294838206464) by reflexivity.
  assert (H67 : 2 ^ 67 = 147573952589676412928) by reflexivity.
  destruct (Z.eqb_spec amp 0) as [-> | Ha0]; cbn [andb].
  - change (2 * 0) with 0. destruct (Z.ltb_spec 0 (a + b)).
    + rewrite stable_lev_zero by lia. reflexivity.
    + assert (a = 0 /\ b = 0) as [-> ->] by lia. rewrite invariant_d_zero. reflexivity.
  - rewrite compute_d_exact by (consts; lia). cbn [obind].
    apply new_inv; consts; lia.
Qed.
