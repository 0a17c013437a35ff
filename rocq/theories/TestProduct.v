(** The randomized tests of the constant-product and the offset curve. *)
From Verif Require Import Ints Tactics SplMath ConstantProduct OffsetCurve LinearCurve SwapCurve Spec CurveFacts DfsFacts
  QuoteSpec QuoteFacts QuoteCurves RootFacts RandomTests TestSpec TestFacts.

(** ** The value as a root *)

Lemma cprod_value_root a b : 0 <= a <= 2 ^ 66 -> 0 <= b <= 2 ^ 66 ->
  cprod_normalized_value a b = spl_sqrt (a * b * 10 ^ 12).
Proof.
  intros Ha Hb. unfold cprod_normalized_value. change (10 ^ 12) with SPL_ONE.
  assert (2 ^ 66 <= 2 ^ 200) by (vm_compute; discriminate).
  rewrite !spl_new_eq by lia. cbn [obind].
  pose proof (prod_le a b _ _ Ha Hb) as Hab. change (2 ^ 66 * 2 ^ 66) with (2 ^ 132) in Hab.
  rewrite RootFacts.spl_mul_whole; [rewrite Z.mul_assoc; reflexivity |].
  change (2 ^ 132) with 5444517870735015415413993718908291383296 in Hab.
  change (2 ^ 200) with 1606938044258990275541962092341162602522202993782792835301376.
  unfold SPL_ONE. lia.
Qed.

(** [g] is a value of reserves with product [k]. *)
Definition value_near (k g : Z) : Prop :=
  0 <= g /\ k * 10 ^ 24 < (g + 1) * (g + 1) /\ g * g <= k * 10 ^ 24 + 10 ^ 12.

Lemma root_near k : 0 < k <= 2 ^ 130 -> exists g, spl_sqrt (k * 10 ^ 12) = Val g /\ value_near k g.
Proof.
  intros Hk. change (2 ^ 130) with 1361129467683753853853498429727072845824 in Hk.
  assert (Hx : 0 < k * 10 ^ 12 <= 2 ^ 170).
  { change (10 ^ 12) with 1000000000000. rewrite pow170. lia. }
  destruct (spl_sqrt_close _ Hx) as (g & E & [R _] & C). exists g. split; [exact E |].
  replace (k * 10 ^ 12 * 10 ^ 12) with (k * 10 ^ 24) in * by ring.
  change (5 * 10 ^ 11) with 500000000000 in *. change (10 ^ 4) with 10000 in C.
  set (N := k * 10 ^ 24) in *. assert (HN : 0 <= N) by (unfold N; change (10 ^ 24) with 1000000000000000000000000; lia).
  pose proof (Z.sqrt_spec (N + 500000000000) ltac:(lia)) as [_ S2]. cbv zeta in S2.
  pose proof (Z.sqrt_nonneg (N + 500000000000)) as S0.
  set (q := Z.sqrt (N + 500000000000)) in *. unfold value_near. fold N. change (10 ^ 12) with 1000000000000.
  assert (Z.succ q * Z.succ q <= (g + 1) * (g + 1)) by (apply Z.mul_le_mono_nonneg; lia).
  lia.
Qed.

(** A larger product has a value that is no smaller. *)
Lemma value_near_mono k k' g g' : k < k' -> value_near k g -> value_near k' g' -> g <= g'.
Proof.
  intros Hk (Hg & _ & H1) (Hg' & H2 & _).
  change (10 ^ 24) with 1000000000000000000000000 in *. change (10 ^ 12) with 1000000000000 in *.
  assert (g < g' + 1); [| lia]. apply Z.square_lt_simpl_nonneg; lia.
Qed.

(** A product that grows by no more than its root has a value at most one higher. *)
Lemma value_near_rise k e g g' : 0 <= e -> e * e <= k -> value_near k g -> value_near (k + e) g' ->
  g' - g < 15 * 10 ^ 11.
Proof.
  intros He Hk (Hg & H1 & _) (Hg' & _ & H2).
  change (10 ^ 24) with 1000000000000000000000000 in *. change (10 ^ 12) with 1000000000000 in *.
  change (15 * 10 ^ 11) with 1500000000000.
  assert (Hge : 1000000000000 * e < g + 1) by (apply Z.square_lt_simpl_nonneg; lia).
  destruct (Z.lt_ge_cases (g' - g) 1500000000000) as [| C]; [assumption | exfalso].
  assert (S : (g + 1 + 1499999999999) * (g + 1 + 1499999999999) <= g' * g') by (apply Z.mul_le_mono_nonneg; lia).
  lia.
Qed.

Lemma difference_one x : 0 <= x < 15 * 10 ^ 11 -> exists d, spl_to_imprecise x = Val d /\ d <= 1.
Proof.
  intros Hx. change (15 * 10 ^ 11) with 1500000000000 in Hx. unfold spl_to_imprecise, SPL_HALF, SPL_ONE.
  rewrite add_in_eq by (rewrite u256_max_val; lia). cbn [obind]. rewrite cdiv_eq by discriminate. cbn [obind].
  assert (0 <= (x + 500000000000) / 1000000000000 < 2).
  { split; [apply Z.div_pos; lia | apply Z.div_lt_upper_bound; lia]. }
  eexists. split; [apply as_u128_val; split; [reflexivity | rewrite u128_max_val; lia] | lia].
Qed.

(** ** Swaps *)

Lemma product_swap_facts source ss sd src dst : 0 <= source -> 1 <= ss -> 0 <= sd ->
  product_swap_quote source ss sd = Val (src, dst) ->
  0 <= src <= source /\ 0 < dst < sd /\
  ss * sd <= (ss + src) * (sd - dst) /\
  ss * sd <= u128_max /\
  let e := (ss + src) * (sd - dst) - ss * sd in e * e <= ss * sd.
Proof.
  intros Hs Hss Hsd. unfold product_swap_quote.
  destruct (Z.ltb_spec u128_max (ss * sd)) as [| Hk]; [discriminate |].
  destruct (Z.eqb_spec (ss + source) 0); [discriminate |]. cbn [orb].
  destruct (Z.ltb_spec (ss * sd) (ss + source)) as [| L].
  { destruct (Z.eqb_spec ss 0); [lia |]. discriminate. }
  cbv zeta. set (k := ss * sd) in *. set (t := ss + source) in *.
  assert (T0 : 0 < t) by (unfold t; lia).
  pose proof (div_bounds (k + t - 1) t T0) as D1. set (nd := (k + t - 1) / t) in *.
  assert (N1 : 0 < nd) by nia.
  pose proof (div_bounds (k + nd - 1) nd N1) as D2. set (ns := (k + nd - 1) / nd) in *.
  destruct (Z.eqb_spec nd sd) as [| Hne]; [discriminate |]. intros E. injection E as <- <-.
  assert (Hnd : nd <= sd).
  { assert (nd < sd + 1); [| lia]. apply Z.mul_lt_mono_pos_r with t; [assumption |].
    assert (ss * sd <= t * sd) by (apply Z.mul_le_mono_nonneg_r; unfold t; lia). fold k in H. lia. }
  assert (Hns : ns <= t).
  { assert (ns < t + 1); [| lia]. apply Z.mul_lt_mono_pos_r with nd; [assumption |]. lia. }
  assert (Hns' : ss <= ns).
  { apply Z.mul_le_mono_pos_r with nd; [assumption |].
    assert (ss * nd <= ss * sd) by (apply Z.mul_le_mono_nonneg_l; lia). fold k in H. lia. }
  replace (ss + (ns - ss)) with ns by ring. replace (sd - (sd - nd)) with nd by ring.
  assert (K : k <= ns * nd < k + nd) by lia.
  assert (K' : ns * nd < k + ns).
  { assert ((nd - 1) * ns <= (nd - 1) * t) by (apply Z.mul_le_mono_nonneg_l; lia). lia. }
  split; [unfold t in *; lia |]. split; [lia |]. split; [lia |]. split; [lia |].
  set (e := ns * nd - k) in *. assert (E1 : 0 <= e < nd) by (unfold e; lia). assert (E2 : e < ns) by (unfold e; lia).
  assert ((e + 1) * (e + 1) <= ns * nd) by (apply Z.mul_le_mono_nonneg; lia). unfold e in *. lia.
Qed.

(** A trade that goes through passes the test, for a curve whose value is the root of the
    product of the reserves, one of them raised by a constant. *)
Lemma root_value_check c source ss sd d src dst x y :
  swap_without_fees c source ss sd d = Val (src, dst) ->
  0 <= source <= 2 ^ 64 -> 1 <= ss <= 2 ^ 64 -> 1 <= sd <= 2 ^ 64 -> 0 <= x <= 2 ^ 64 -> 0 <= y <= 2 ^ 64 ->
  product_swap_quote source (ss + x) (sd + y) = Val (src, dst) -> dst <= sd ->
  (forall s t a b, 0 <= s <= 2 ^ 65 -> 0 <= t <= 2 ^ 65 -> in_order d s t = (a, b) ->
     normalized_value c a b = spl_sqrt ((s + x) * (t + y) * 10 ^ 12)) ->
  check_curve_value_from_swap c source ss sd d = Go tt.
Proof.
  intros E Hs Hss Hsd Hx Hy Q Hd Hv. unfold check_curve_value_from_swap. rewrite E. cbn [unwrap tbind].
  destruct (product_swap_facts source (ss + x) (sd + y) src dst) as (F1 & F2 & F3 & F4 & F5); try lia; [assumption |].
  cbv zeta in F5. rewrite u128_max_val in F4.
  change (2 ^ 64) with 18446744073709551616 in *. change (2 ^ 65) with 36893488147419103232 in *.
  rewrite add_in_eq by (rewrite u128_max_val; lia). rewrite csub_eq by lia.
  destruct (in_order d ss sd) as [a b] eqn:Eo. rewrite (Hv ss sd a b) by (try exact Eo; lia).
  assert (K0 : 0 < (ss + x) * (sd + y)) by (apply Z.mul_pos_pos; lia).
  destruct (root_near ((ss + x) * (sd + y))) as (g & Eg & Ng).
  { change (2 ^ 130) with 1361129467683753853853498429727072845824. lia. }
  rewrite Eg. cbn [unwrap tbind].
  destruct (in_order d (ss + src) (sd - dst)) as [a' b'] eqn:Eo'.
  rewrite (Hv (ss + src) (sd - dst) a' b') by (try exact Eo'; lia).
  replace ((ss + src + x) * (sd - dst + y)) with ((ss + x + src) * (sd + y - dst)) by ring.
  set (k := (ss + x) * (sd + y)) in *. set (k' := (ss + x + src) * (sd + y - dst)) in *.
  assert (KU : k' <= k + 2 ^ 129).
  { destruct (Z.le_gt_cases (k' - k) (2 ^ 64)) as [| C].
    - change (2 ^ 64) with 18446744073709551616 in *. change (2 ^ 129) with 680564733841876926926749214863536422912. lia.
    - exfalso. assert (2 ^ 64 * 2 ^ 64 <= (k' - k) * (k' - k)) by (apply Z.mul_le_mono_nonneg; lia).
      change (2 ^ 64 * 2 ^ 64) with 340282366920938463463374607431768211456 in H. lia. }
  destruct (root_near k') as (g' & Eg' & Ng').
  { change (2 ^ 130) with 1361129467683753853853498429727072845824.
    change (2 ^ 129) with 680564733841876926926749214863536422912 in KU. lia. }
  rewrite Eg'. cbn [unwrap tbind].
  assert (M : g <= g').
  { destruct (Z.eq_dec k' k) as [Ek | Ek].
    - rewrite Ek, Eg in Eg'. injection Eg' as <-. lia.
    - apply (value_near_mono k k'); [lia | assumption | assumption]. }
  rewrite assert_eq by (apply Z.leb_le; assumption). cbn [tbind].
  unfold spl_sub. rewrite csub_eq by assumption. cbn [unwrap tbind].
  destruct (difference_one (g' - g)) as (m & Em & Lm).
  { split; [lia |]. apply (value_near_rise k (k' - k)); [lia | exact F5 | assumption |].
    replace (k + (k' - k)) with k' by ring. assumption. }
  rewrite Em. cbn [unwrap tbind]. apply assert_eq, Z.leb_le. assumption.
Qed.

Lemma no_quote_broke c source ss sd d : swap_without_fees c source ss sd d = Non ->
  check_curve_value_from_swap c source ss sd d = Stop Broke.
Proof. intros E. unfold check_curve_value_from_swap. rewrite E. reflexivity. Qed.

Lemma product_quote_val source ss sd : product_swap_quote source ss sd = Non \/
  exists src dst, product_swap_quote source ss sd = Val (src, dst).
Proof.
  unfold product_swap_quote. cbv zeta.
  repeat match goal with |- context [if ?b then _ else _] => destruct b end;
    (left; reflexivity) || (right; eexists; eexists; reflexivity).
Qed.

Lemma product_swap_test source ss sd : drawn64 source -> drawn64 ss -> drawn64 sd ->
  passes_with_a_trade (value_swap ConstantProduct source ss sd)
    (swap_without_fees ConstantProduct source ss sd AtoB).
Proof.
  intros H1 H2 H3. apply d64 in H1, H2, H3.
  destruct H1 as (U1 & L1 & M1), H2 as (U2 & L2 & M2), H3 as (U3 & L3 & M3).
  unfold value_swap. pose proof (cprod_swap_quote source ss sd AtoB U1 U2 U3) as E.
  rewrite u64_max_val in *. unfold is_u64 in *. rewrite u64_max_val in *.
  destruct (product_quote_val source ss sd) as [Q | (src & dst & Q)]; rewrite Q in E.
  - right. split; [rewrite E; discriminate |]. rewrite no_quote_broke by assumption. reflexivity.
  - left. split; [eexists; exact E |].
    rewrite (root_value_check ConstantProduct source ss sd AtoB src dst 0 0); try assumption; try reflexivity;
      try (change (2 ^ 64) with 18446744073709551616; lia).
    + rewrite !Z.add_0_r. exact Q.
    + destruct (product_swap_facts source ss sd src dst) as (F1 & F2 & _); try lia; assumption.
    + intros s t a b Hs Ht Eo. cbn in Eo. injection Eo as <- <-. rewrite !Z.add_0_r.
      apply cprod_value_root; change (2 ^ 66) with (2 * 2 ^ 65); lia.
Qed.

Lemma offset_value_root o a b : 0 <= o <= 2 ^ 64 -> 0 <= a <= 2 ^ 65 -> 0 <= b <= 2 ^ 65 ->
  normalized_value (Offset o) a b = spl_sqrt (a * (b + o) * 10 ^ 12).
Proof.
  intros Ho Ha Hb. change (normalized_value (Offset o) a b) with
    (let? b' := add_in u128_max b o in cprod_normalized_value a b').
  change (2 ^ 64) with 18446744073709551616 in *. change (2 ^ 65) with 36893488147419103232 in *.
  rewrite add_in_eq by (rewrite u128_max_val; lia). cbn [obind].
  apply cprod_value_root; change (2 ^ 66) with 73786976294838206464; lia.
Qed.

Ltac assumed A :=
  match goal with |- context [assume ?b] => destruct b eqn:A; cbn [assume tbind verdict_of]; [| left; reflexivity] end;
  apply Z.leb_le in A.

(** What the test assumes keeps the trade within the reserve of token B. *)
Lemma offset_dst source ss sd o src dst : 0 <= source -> 1 <= ss -> 0 <= sd -> 0 <= o ->
  source * o <= ss * sd -> product_swap_quote source ss (sd + o) = Val (src, dst) -> dst <= sd.
Proof.
  intros Hs Hss Hsd Ho A. unfold product_swap_quote.
  destruct (Z.ltb_spec u128_max (ss * (sd + o))); [discriminate |].
  destruct (Z.eqb_spec (ss + source) 0); [lia |]. cbn [orb].
  destruct (Z.ltb_spec (ss * (sd + o)) (ss + source)) as [| L].
  { destruct (Z.eqb_spec ss 0); [lia | discriminate]. }
  cbv zeta. match goal with |- context [_ =? sd + o] => idtac end.
  assert (N : o <= (ss * (sd + o) + (ss + source) - 1) / (ss + source)) by (apply Z.div_le_lower_bound; lia).
  set (nd := (ss * (sd + o) + (ss + source) - 1) / (ss + source)) in *.
  destruct (Z.eqb_spec nd (sd + o)); [discriminate |]. intros E. injection E as _ <-. lia.
Qed.

Lemma offset_swap_a_to_b_test source ss sd o :
  drawn64 source -> drawn64 ss -> drawn64 sd -> drawn64 o ->
  let v := offset_value_swap_a_to_b source ss sd o in
  v = Rejected \/ passes_with_a_trade v (swap_without_fees (Offset o) source ss sd AtoB).
Proof.
  intros H1 H2 H3 H4. apply d64 in H1, H2, H3, H4.
  destruct H1 as (U1 & L1 & M1), H2 as (U2 & L2 & M2), H3 as (U3 & L3 & M3), H4 as (U4 & L4 & M4).
  cbv zeta. unfold offset_value_swap_a_to_b.
  pose proof (offset_swap_quote o source ss sd AtoB U4 U1 U2 U3) as E. cbv iota in E.
  pose proof (prod_le source o _ _ U1 U4) as P1. pose proof (prod_le ss sd _ _ U2 U3) as P2.
  unfold is_u64 in *. rewrite u64_max_val in *.
  rewrite tadd_eq by (rewrite u128_max_val; lia). cbn [tbind].
  assumed A1.
  rewrite tmul_eq by (rewrite u128_max_val; lia). cbn [tbind].
  rewrite tmul_eq by (rewrite u128_max_val; lia). cbn [tbind].
  assumed A2.
  right.
  destruct (product_quote_val source ss (sd + o)) as [Q | (src & dst & Q)]; rewrite Q in E.
  - right. split; [rewrite E; discriminate |]. rewrite no_quote_broke by assumption. reflexivity.
  - left. split; [eexists; exact E |].
    rewrite (root_value_check (Offset o) source ss sd AtoB src dst 0 o); try assumption; try reflexivity;
      try (change (2 ^ 64) with 18446744073709551616; lia).
    + rewrite Z.add_0_r. exact Q.
    + apply (offset_dst source ss sd o src dst); lia || assumption.
    + intros s t a b Hs Ht Eo. cbn in Eo. injection Eo as <- <-. rewrite Z.add_0_r.
      apply offset_value_root; [change (2 ^ 64) with 18446744073709551616 | |]; lia.
Qed.

Lemma offset_swap_b_to_a_test source ss sd o :
  drawn64 source -> drawn64 ss -> drawn64 sd -> drawn64 o ->
  let v := offset_value_swap_b_to_a source ss sd o in
  v = Rejected \/ passes_with_a_trade v (swap_without_fees (Offset o) source ss sd BtoA).
Proof.
  intros H1 H2 H3 H4. apply d64 in H1, H2, H3, H4.
  destruct H1 as (U1 & L1 & M1), H2 as (U2 & L2 & M2), H3 as (U3 & L3 & M3), H4 as (U4 & L4 & M4).
  cbv zeta. unfold offset_value_swap_b_to_a.
  pose proof (offset_swap_quote o source ss sd BtoA U4 U1 U2 U3) as E. cbv iota in E.
  unfold is_u64 in *. rewrite u64_max_val in *.
  rewrite tadd_eq by (rewrite u128_max_val; lia). cbn [tbind].
  assumed A1.
  right.
  destruct (product_quote_val source (ss + o) sd) as [Q | (src & dst & Q)]; rewrite Q in E.
  - right. split; [rewrite E; discriminate |]. rewrite no_quote_broke by assumption. reflexivity.
  - left. split; [eexists; exact E |].
    rewrite (root_value_check (Offset o) source ss sd BtoA src dst o 0); try assumption; try reflexivity;
      try (change (2 ^ 64) with 18446744073709551616; lia).
    + rewrite Z.add_0_r. exact Q.
    + destruct (product_swap_facts source (ss + o) sd src dst) as (F1 & F2 & _); try lia; assumption.
    + intros s t a b Hs Ht Eo. cbn in Eo. injection Eo as <- <-. rewrite Z.add_0_r.
      rewrite (Z.mul_comm (s + o) t).
      apply offset_value_root; [change (2 ^ 64) with 18446744073709551616 | |]; lia.
Qed.

(** ** Deposits *)

Lemma share_up n a s : 0 < s -> s <= n * a ->
  n * a <= share_of Ceiling n a s * s < n * a + s.
Proof.
  intros Hs H. unfold share_of. destruct (Z.ltb_spec (n * a) s); [lia |].
  pose proof (div_bounds (n * a + s - 1) s Hs). lia.
Qed.

Lemma deposit_check c o n s a b :
  is_u64 n -> n < u64_max -> is_u64 s -> 1 <= s -> is_u64 a -> 0 <= b -> 0 <= o -> is_u64 (b + o) ->
  pool_tokens_to_trading_tokens c n s a b Ceiling = ratio_quote n s a (b + o) Ceiling ->
  s <= n * a -> s <= n * (b + o) ->
  check_pool_value_from_deposit c n s a b = Go tt.
Proof.
  intros Hn Mn Hs Ls Ha Hb Ho Hbo E A1 A2. unfold check_pool_value_from_deposit. rewrite E. unfold ratio_quote.
  destruct (Z.eqb_spec s 0); [lia |]. cbn [unwrap tbind].
  pose proof (share_up n a s ltac:(lia) A1) as S1. pose proof (share_up n (b + o) s ltac:(lia) A2) as S2.
  set (da := share_of Ceiling n a s) in *. set (db := share_of Ceiling n (b + o) s) in *.
  unfold is_u64 in *.
  pose proof (prod_le (n + 1) a u64_max u64_max ltac:(lia) Ha) as P1.
  pose proof (prod_le (n + 1) (b + o) u64_max u64_max ltac:(lia) Hbo) as P2.
  assert (Q : forall x y, 0 < y <= x * s -> (x - 1) * s < y -> 0 < x <= y).
  { intros x y Hy Hx. assert (X : 0 < x) by (apply Z.mul_lt_mono_pos_r with s; lia). split; [exact X |].
    assert ((x - 1) * 1 <= (x - 1) * s) by (apply Z.mul_le_mono_nonneg_l; lia). lia. }
  pose proof (Q da (n * a) ltac:(lia) ltac:(lia)) as D1.
  pose proof (Q db (n * (b + o)) ltac:(lia) ltac:(lia)) as D2.
  rewrite u64_max_val in *.
  rewrite tadd_eq by (rewrite u128_max_val; lia). cbn [tbind].
  rewrite tadd_eq by (rewrite u128_max_val; lia). cbn [tbind].
  rewrite tadd_eq by (rewrite u128_max_val; lia). cbn [tbind].
  assert (B1 : (a + da) * s <= 2 ^ 129 * 2 ^ 64) by (apply Z.mul_le_mono_nonneg; lia).
  assert (B2 : (b + db) * s <= 2 ^ 129 * 2 ^ 64) by (apply Z.mul_le_mono_nonneg; lia).
  assert (B3 : a * (s + n) <= 2 ^ 64 * 2 ^ 65) by (apply Z.mul_le_mono_nonneg; lia).
  assert (B4 : b * (s + n) <= 2 ^ 64 * 2 ^ 65) by (apply Z.mul_le_mono_nonneg; lia).
  rewrite !mul_in_eq by (rewrite u256_max_val; lia). cbn [unwrap tbind].
  rewrite !assert_eq; [reflexivity | | ]; apply Z.leb_le.
  - assert (n * b <= n * (b + o)) by (apply Z.mul_le_mono_nonneg_l; lia). lia.
  - lia.
Qed.

Lemma shares_assumed o n s a b (k : test unit) (P : verdict -> Prop) :
  drawn64 n -> drawn64 s -> drawn64 a -> 0 <= b -> 0 <= o -> is_u64 (b + o) -> P Rejected ->
  (s <= n * a -> s <= n * (b + o) -> P (verdict_of k)) ->
  P (verdict_of (let! _ := assume_shares o n s a b in k)).
Proof.
  intros Hn Hs Ha Hb Ho Hbo R H. apply d64 in Hn, Hs, Ha. unfold assume_shares, is_u64 in *.
  pose proof (prod_le n a u64_max u64_max ltac:(lia) ltac:(lia)) as P1.
  pose proof (prod_le n (b + o) u64_max u64_max ltac:(lia) Hbo) as P2.
  rewrite u64_max_val in *.
  rewrite tmul_eq by (rewrite u128_max_val; lia). cbn [tbind].
  rewrite cdiv_eq by lia. cbn [unwrap tbind].
  destruct (Z.leb_spec 1 (n * a / s)) as [A1 | A1]; cbn [assume tbind verdict_of]; [| exact R].
  rewrite tadd_eq by (rewrite u128_max_val; lia). cbn [tbind].
  rewrite tmul_eq by (rewrite u128_max_val; lia). cbn [tbind].
  rewrite cdiv_eq by lia. cbn [unwrap tbind].
  destruct (Z.leb_spec 1 (n * (b + o) / s)) as [A2 | A2]; cbn [assume tbind verdict_of]; [| exact R].
  pose proof (div_bounds (n * a) s ltac:(lia)). pose proof (div_bounds (n * (b + o)) s ltac:(lia)).
  apply H.
  - assert (s * 1 <= s * (n * a / s)) by (apply Z.mul_le_mono_nonneg_l; lia). lia.
  - assert (s * 1 <= s * (n * (b + o) / s)) by (apply Z.mul_le_mono_nonneg_l; lia). lia.
Qed.

Lemma product_deposit_test c n s a b : c = ConstantProduct \/ (exists amp, c = Stable amp) ->
  drawn64 n -> drawn64 s -> drawn64 a -> drawn64 b -> holds (value_deposit c n s a b).
Proof.
  intros Hc Hn Hs Ha Hb. pose proof (d64 b Hb) as (U4 & L4 & M4). unfold value_deposit.
  apply shares_assumed; try assumption; try lia; [rewrite Z.add_0_r; assumption | right; reflexivity |].
  rewrite Z.add_0_r. intros A1 A2. apply d64 in Hn, Hs, Ha.
  destruct Hn as (U1 & L1 & M1), Hs as (U2 & L2 & M2), Ha as (U3 & L3 & M3).
  apply go_passed, deposit_check with 0; rewrite ?Z.add_0_r; try assumption; try lia.
  destruct (both_quotes n s a b Ceiling U1 U2 U3 U4) as [E1 E2].
  destruct Hc as [-> | [amp ->]]; [exact E1 | apply E2].
Qed.

Lemma offset_deposit_test n s a b o :
  drawn64 n -> drawn64 s -> drawn64 a -> drawn_sum b o -> holds (offset_value_deposit n s a b o).
Proof.
  intros Hn Hs Ha Hb. assert (Hbo : 1 <= b /\ 1 <= o /\ b + o < u64_max).
  { destruct Hb as (t & Ht & Ho & ->). unfold drawn64, drawn in *. lia. }
  destruct Hbo as (L4 & L5 & M4). unfold offset_value_deposit.
  apply shares_assumed; try assumption; try lia; [unfold is_u64; lia | right; reflexivity |].
  intros A1 A2. apply d64 in Hn, Hs, Ha.
  destruct Hn as (U1 & L1 & M1), Hs as (U2 & L2 & M2), Ha as (U3 & L3 & M3).
  apply go_passed, deposit_check with o; try assumption; try lia; [unfold is_u64; lia |].
  destruct (offset_shift o 0 a b s n AtoB Ceiling) as [E _]; [unfold is_u64; lia .. |]. rewrite E.
  apply both_quotes; try assumption. unfold is_u64; lia.
Qed.

(** ** Withdrawals *)

Lemma value_near_share k k' g g' s m : 1 <= k -> 1 <= k' -> value_near k g -> value_near k' g' ->
  0 <= m <= s -> 1 <= s -> k * (m * m) <= k' * (s * s) -> g * m < (g' + 2) * s.
Proof.
  intros Hk Hk' (G0 & _ & G1) (G0' & G1' & _) Hm Hs H.
  change (10 ^ 24) with (1000000000000 * 1000000000000) in *. change (10 ^ 12) with 1000000000000 in *.
  assert (B : 1000000000000 < g' + 1) by (apply Z.square_lt_simpl_nonneg; lia).
  apply Z.square_lt_simpl_nonneg; [nia |].
  assert (M0 : 0 <= m * m) by nia. assert (S0 : 0 < s * s) by nia.
  assert (MS : m * m <= s * s) by (apply Z.mul_le_mono_nonneg; lia).
  replace (g * m * (g * m)) with (g * g * (m * m)) by ring.
  replace ((g' + 2) * s * ((g' + 2) * s)) with (((g' + 1) * (g' + 1) + 2 * (g' + 1) + 1) * (s * s)) by ring.
  set (q := (g' + 1) * (g' + 1)) in *. set (u := g * g) in *. set (M := m * m) in *. set (S := s * s) in *.
  clearbody q u M S.
  assert (I1 : u * M <= (k * (1000000000000 * 1000000000000) + 1000000000000) * M)
    by (apply Z.mul_le_mono_nonneg_r; lia).
  assert (I2 : k' * (1000000000000 * 1000000000000) * S < q * S) by (apply Z.mul_lt_mono_pos_r; lia).
  assert (I3 : 1000000000000 * M <= 2 * (g' + 1) * S) by (apply Z.mul_le_mono_nonneg; lia).
  lia.
Qed.

Lemma per_token_verdict v v' s s' : 0 <= v <= 2 ^ 110 -> 0 <= v' <= 2 ^ 110 -> 0 <= s <= 2 ^ 64 -> 0 <= s' <= 2 ^ 64 ->
  verdict_of (check_value_per_token v v' s s') = if v * s' <=? v' * s then Passed else Violated.
Proof.
  intros Hv Hv' Hs Hs'. unfold check_value_per_token.
  assert (2 ^ 64 <= 2 ^ 200) by (vm_compute; discriminate).
  rewrite !spl_new_eq by lia. cbn [unwrap tbind].
  assert (C : forall x y, spl_mul x y = spl_mul y x).
  { intros x y. unfold spl_mul. replace (mul_in u256_max x y) with (mul_in u256_max y x)
      by (unfold mul_in; rewrite (Z.mul_comm y x); reflexivity).
    destruct (mul_in u256_max y x); try reflexivity.
    destruct (Z.leb_spec y x), (Z.leb_spec x y); try reflexivity; try lia.
    replace x with y by lia. reflexivity. }
  rewrite (C v'), (C v).
  assert (T : forall x y, 0 <= x <= 2 ^ 64 -> 0 <= y <= 2 ^ 110 -> 0 <= x * y <= 2 ^ 200).
  { intros x y Hx Hy. pose proof (prod_le x y _ _ Hx Hy) as P. change (2 ^ 64 * 2 ^ 110) with (2 ^ 174) in P.
    assert (2 ^ 174 <= 2 ^ 200) by (vm_compute; discriminate). lia. }
  rewrite !RootFacts.spl_mul_whole by (apply T; assumption). cbn [unwrap tbind].
  rewrite (Z.mul_comm v), (Z.mul_comm v'). destruct (s' * v <=? s * v'); reflexivity.
Qed.

Lemma value_near_bound k g : 0 <= k <= 2 ^ 130 -> value_near k g -> 0 <= g <= 2 ^ 110.
Proof.
  intros Hk (G0 & _ & G1). split; [exact G0 |]. apply Z.square_le_simpl_nonneg; [lia |].
  change (10 ^ 24) with 1000000000000000000000000 in *. change (10 ^ 12) with 1000000000000 in *.
  change (2 ^ 130) with 1361129467683753853853498429727072845824 in Hk.
  change (2 ^ 110 * 2 ^ 110) with 1684996666696914987166688442938726917102321526408785780068975640576. lia.
Qed.

Lemma share_left n a s : 0 <= n < s -> 1 <= a -> 0 <= n * a / s /\ 1 <= a - n * a / s <= a /\ a * (s - n) <= (a - n * a / s) * s.
Proof.
  intros Hn Ha. pose proof (div_bounds (n * a) s ltac:(lia)) as D.
  assert (0 <= n * a) by (apply Z.mul_nonneg_nonneg; lia).
  assert (D0 : 0 <= n * a / s) by (apply Z.div_pos; lia). set (w := n * a / s) in *.
  assert (W : w < a).
  { apply Z.mul_lt_mono_pos_r with s; [lia |].
    assert (n * a < s * a) by (apply Z.mul_lt_mono_pos_r; lia). lia. }
  split; [exact D0 |]. split; [lia |]. lia.
Qed.

Lemma withdraw_check c o n s a b :
  drawn_part s n -> drawn64 a -> 0 <= b -> 0 <= o -> 1 <= b + o -> is_u64 (b + o) ->
  pool_tokens_to_trading_tokens c n s a b Floor = ratio_quote n s a (b + o) Floor ->
  (forall x y, 0 <= x <= 2 ^ 65 -> 0 <= y <= 2 ^ 65 -> normalized_value c x y = spl_sqrt (x * (y + o) * 10 ^ 12)) ->
  n * (b + o) / s <= b ->
  exists v v', normalized_value c a b = Val v /\
    normalized_value c (a - n * a / s) (b - n * (b + o) / s) = Val v' /\
    withdrawal_value_test (verdict_of (check_pool_value_from_withdraw c n s a b)) v v' n s.
Proof.
  intros Hn Ha Hb Ho L4 Hbo E Hv A. apply dpart in Hn. apply d64 in Ha.
  destruct Hn as (Us & Un & Ln & Ms), Ha as (U3 & L3 & M3).
  destruct (share_left n a s ltac:(lia) L3) as (W1 & W2 & W3).
  destruct (share_left n (b + o) s ltac:(lia) L4) as (X1 & X2 & X3).
  unfold check_pool_value_from_withdraw. rewrite E. unfold ratio_quote, share_of.
  destruct (Z.eqb_spec s 0); [lia |]. cbn [unwrap tbind].
  set (wa := n * a / s) in *. set (wb := n * (b + o) / s) in *.
  unfold is_u64 in *. rewrite u64_max_val in *.
  rewrite !tsub_eq by lia. cbn [tbind].
  change (2 ^ 65) with 36893488147419103232 in Hv. rewrite !Hv by lia.
  replace (b - wb + o) with (b + o - wb) by ring.
  pose proof (prod_le a (b + o) _ _ U3 Hbo) as P1.
  assert (P0 : 0 < a * (b + o)) by (apply Z.mul_pos_pos; lia).
  assert (P2 : 0 < (a - wa) * (b + o - wb)) by (apply Z.mul_pos_pos; lia).
  assert (P3 : (a - wa) * (b + o - wb) <= a * (b + o)) by (apply Z.mul_le_mono_nonneg; lia).
  assert (K : a * (b + o) * ((s - n) * (s - n)) <= (a - wa) * (b + o - wb) * (s * s)).
  { replace (a * (b + o) * ((s - n) * (s - n))) with (a * (s - n) * ((b + o) * (s - n))) by ring.
    replace ((a - wa) * (b + o - wb) * (s * s)) with ((a - wa) * s * ((b + o - wb) * s)) by ring.
    apply Z.mul_le_mono_nonneg; try assumption; apply Z.mul_nonneg_nonneg; lia. }
  set (k := a * (b + o)) in *. set (k' := (a - wa) * (b + o - wb)) in *.
  assert (H130 : 0 < k <= 2 ^ 130 /\ 0 < k' <= 2 ^ 130).
  { change (2 ^ 130) with 1361129467683753853853498429727072845824. lia. }
  destruct H130 as [K1 K2].
  destruct (root_near k K1) as (g & Eg & Ng). destruct (root_near k' K2) as (g' & Eg' & Ng').
  rewrite Eg, Eg'. cbn [unwrap tbind]. exists g, g'. split; [reflexivity |]. split; [reflexivity |].
  assert (B1 : 0 <= g <= 2 ^ 110) by (apply (value_near_bound k); [lia | assumption]).
  assert (B2 : 0 <= g' <= 2 ^ 110) by (apply (value_near_bound k'); [lia | assumption]).
  split.
  - apply per_token_verdict; try assumption; change (2 ^ 64) with 18446744073709551616; lia.
  - apply (value_near_share k k'); try assumption; lia.
Qed.

Lemma product_withdraw_test n s a b : drawn_part s n -> drawn64 a -> drawn64 b ->
  let verdict := value_withdraw ConstantProduct n s a b in
  verdict = Rejected \/
  exists v v', normalized_value ConstantProduct a b = Val v /\
    normalized_value ConstantProduct (a - n * a / s) (b - n * b / s) = Val v' /\
    withdrawal_value_test verdict v v' n s.
Proof.
  intros Hn Ha Hb. cbv zeta. pose proof (d64 b Hb) as (U4 & L4 & M4).
  pose proof (d64 a Ha) as (U3 & _ & _). pose proof (dpart s n Hn) as (U2 & U1 & Ln & Ms).
  unfold value_withdraw.
  apply (shares_assumed 0 n s a b _ (fun verdict => verdict = Rejected \/ exists v v', _ /\ _ /\ withdrawal_value_test verdict v v' n s));
    rewrite ?Z.add_0_r; try assumption; try (unfold drawn64, drawn; lia); [left; reflexivity |].
  intros _ _. right.
  destruct (withdraw_check ConstantProduct 0 n s a b) as (v & v' & E1 & E2 & E3);
    rewrite ?Z.add_0_r in *; try assumption; try lia.
  - apply both_quotes; assumption.
  - intros x y Hx Hy. rewrite Z.add_0_r. apply cprod_value_root; change (2 ^ 66) with (2 * 2 ^ 65); lia.
  - destruct (share_left n b s) as (W1 & W2 & W3); lia.
  - exists v, v'. split; [exact E1 |]. split; [exact E2 |]. exact E3.
Qed.

Lemma offset_withdraw_test n s a b o : drawn_part s n -> drawn64 a -> drawn_sum b o ->
  let verdict := offset_value_withdraw n s a b o in
  verdict = Rejected \/
  exists v v', normalized_value (Offset o) a b = Val v /\
    normalized_value (Offset o) (a - n * a / s) (b - n * (b + o) / s) = Val v' /\
    withdrawal_value_test verdict v v' n s.
Proof.
  intros Hn Ha Hb. cbv zeta. assert (Hbo : 1 <= b /\ 1 <= o /\ b + o < u64_max).
  { destruct Hb as (t & Ht & Ho & ->). unfold drawn64, drawn in *. lia. }
  destruct Hbo as (L4 & L5 & M4).
  pose proof (d64 a Ha) as (U3 & _ & _). pose proof (dpart s n Hn) as (U2 & U1 & Ln & Ms).
  unfold offset_value_withdraw.
  apply (shares_assumed o n s a b _ (fun verdict => verdict = Rejected \/ exists v v', _ /\ _ /\ withdrawal_value_test verdict v v' n s));
    try assumption; try (unfold drawn64, drawn, is_u64; lia); [left; reflexivity |].
  intros _ _.
  assert (E : pool_tokens_to_trading_tokens (Offset o) n s a b Floor = ratio_quote n s a (b + o) Floor).
  { destruct (offset_shift o 0 a b s n AtoB Floor) as [E _]; [unfold is_u64; lia .. |]. rewrite E.
    apply both_quotes; try assumption. unfold is_u64; lia. }
  rewrite E. unfold ratio_quote, share_of. destruct (Z.eqb_spec s 0); [lia |]. cbn [unwrap tbind].
  destruct (Z.leb_spec (n * (b + o) / s) b) as [A | A]; cbn [assume tbind verdict_of]; [| left; reflexivity].
  right. destruct (withdraw_check (Offset o) o n s a b) as (v & v' & E1 & E2 & E3); try assumption; try lia.
  - unfold is_u64; lia.
  - intros x y Hx Hy. apply offset_value_root; try assumption. rewrite u64_max_val in *.
    change (2 ^ 64) with 18446744073709551616. lia.
  - exists v, v'. split; [exact E1 |]. split; [exact E2 |]. exact E3.
Qed.
