(** The randomized tests of the constant-price curve. *)
From Verif Require Import Ints Tactics SplMath ConstantPrice LinearCurve SwapCurve Spec CurveFacts DfsFacts
  QuoteSpec QuoteFacts QuoteCurves SplFacts RandomTests TestSpec.

Lemma unwrap_eq A (m : outcome A) a : m = Val a -> unwrap m = Go a.
Proof. intros ->. reflexivity. Qed.
Lemma tadd_eq x y : x + y <= u128_max -> tadd x y = Go (x + y).
Proof. intros. apply unwrap_eq, add_in_eq. assumption. Qed.
Lemma tsub_eq x y : y <= x -> tsub x y = Go (x - y).
Proof. intros. apply unwrap_eq, csub_eq. assumption. Qed.
Lemma tmul_eq x y : x * y <= u128_max -> tmul x y = Go (x * y).
Proof. intros. apply unwrap_eq, mul_in_eq. assumption. Qed.
Lemma assert_eq b : b = true -> assert b = Go tt.
Proof. intros ->. reflexivity. Qed.

Lemma assume_holds b k : (b = true -> holds (verdict_of k)) -> holds (verdict_of (let! _ := assume b in k)).
Proof. intros H. destruct b; cbn [assume tbind]; [apply H; reflexivity | right; reflexivity]. Qed.

Lemma go_passed m : m = Go tt -> holds (verdict_of m).
Proof. intros ->. left. reflexivity. Qed.

Lemma drawn_u64 lo hi x : 0 <= lo -> hi <= u64_max -> drawn lo hi x -> is_u64 x.
Proof. unfold drawn, is_u64. lia. Qed.

Lemma d64 x : drawn64 x -> is_u64 x /\ 1 <= x /\ x < u64_max.
Proof. unfold drawn64, drawn, is_u64. lia. Qed.
Lemma d32 x : drawn32 x -> is_u64 x /\ 1 <= x < u32_max.
Proof. unfold drawn32, drawn, is_u64, u32_max, u64_max. lia. Qed.
Lemma dsup x : drawn_supply x -> is_u64 x /\ 1 <= x /\ x < u64_max.
Proof. unfold drawn_supply, drawn, is_u64, INITIAL_SWAP_POOL_AMOUNT. lia. Qed.
Lemma dpart t x : drawn_part t x -> is_u64 t /\ is_u64 x /\ 1 <= x < t /\ t < u64_max.
Proof. unfold drawn_part, drawn64, drawn, is_u64. lia. Qed.

Lemma value128 p a b : is_u64 p -> is_u128 a -> is_u128 b -> pool_value p a b <= u128_max ->
  normalized_value (ConstantPrice p) a b = Val (pool_value p a b / 2 * 10 ^ 12).
Proof. intros Hp Ha Hb H. apply cprice_value_iff; [assumption .. | split; [assumption | reflexivity]]. Qed.

(** ** Swaps *)

Lemma same_value_check p source ss sd d src dst :
  is_u64 p -> is_u64 ss -> is_u64 sd -> is_u128 src ->
  swap_without_fees (ConstantPrice p) source ss sd d = Val (src, dst) ->
  0 <= dst <= sd -> ss + src <= u128_max ->
  (forall a b a' b', in_order d ss sd = (a, b) -> in_order d (ss + src) (sd - dst) = (a', b') ->
     pool_value p a' b' = pool_value p a b) ->
  check_curve_value_from_swap (ConstantPrice p) source ss sd d = Go tt.
Proof.
  intros Hp Hss Hsd Hsrc E Hd Hu Hv. unfold check_curve_value_from_swap. rewrite E. cbn [unwrap tbind].
  rewrite add_in_eq by assumption. rewrite csub_eq by lia.
  destruct (in_order d ss sd) as [a b] eqn:Eo. destruct (in_order d (ss + src) (sd - dst)) as [a' b'] eqn:Eo'.
  specialize (Hv a b a' b' eq_refl eq_refl).
  assert (Hab : is_u64 a /\ is_u64 b) by (destruct d; cbn in Eo; injection Eo as <- <-; split; assumption).
  assert (Hab' : is_u128 a' /\ is_u128 b').
  { unfold is_u64, is_u128 in *. assert (u64_max <= u128_max) by (vm_compute; discriminate).
    destruct d; cbn in Eo'; injection Eo' as <- <-; lia. }
  destruct Hab as [Ha Hb]. destruct Hab' as [Ha' Hb'].
  rewrite cprice_value by assumption. cbn [unwrap tbind].
  pose proof (pool_value_u64 p a b Hp Ha Hb) as [_ Hv'].
  rewrite Eo'. rewrite value128 by (try assumption; lia). cbn [unwrap tbind]. rewrite Hv, Z.leb_refl. cbn [assert tbind].
  unfold spl_sub. rewrite csub_eq by lia. rewrite Z.sub_diag. reflexivity.
Qed.

Lemma price_swap_a_to_b_holds source ss sd p :
  drawn64 source -> drawn64 ss -> drawn64 sd -> drawn64 p -> holds (price_value_swap_a_to_b source ss sd p).
Proof.
  intros H1 H2 H3 H4. apply d64 in H1, H2, H3, H4.
  destruct H1 as (U1 & L1 & M1), H2 as (U2 & L2 & M2), H3 as (U3 & L3 & M3), H4 as (U4 & L4 & M4).
  unfold price_value_swap_a_to_b. apply assume_holds. intros A1. apply assume_holds. intros A2.
  apply Z.leb_le in A1, A2. apply go_passed.
  pose proof (Z.div_mod source p ltac:(lia)) as DM. pose proof (Z.mod_pos_bound source p ltac:(lia)) as MB.
  assert (p <= source) by nia.
  apply (same_value_check p source ss sd AtoB (source - source mod p) (source / p)); try assumption.
  - unfold is_u64, is_u128 in *. unfold u64_max, u128_max in *. lia.
  - rewrite cprice_swap_quote by assumption. unfold price_swap_quote.
    destruct (Z.eqb_spec p 0); [lia |]. destruct (Z.ltb_spec source p); [lia |]. reflexivity.
  - lia.
  - unfold is_u64 in *. unfold u64_max, u128_max in *. lia.
  - cbn. intros a b a' b' E E'. injection E as <- <-. injection E' as <- <-. unfold pool_value. lia.
Qed.

Lemma price_swap_b_to_a_holds source ss sd p :
  drawn32 source -> drawn64 ss -> drawn64 sd -> drawn32 p -> holds (price_value_swap_b_to_a source ss sd p).
Proof.
  intros H1 H2 H3 H4. apply d64 in H2, H3. apply d32 in H1, H4.
  destruct H1 as (U1 & L1), H2 as (U2 & L2 & M2), H3 as (U3 & L3 & M3), H4 as (U4 & L4).
  unfold price_value_swap_b_to_a.
  assert (0 < p * source <= u32_max * u32_max) by nia.
  rewrite tmul_eq by (unfold u32_max, u128_max in *; lia). cbn [tbind]. apply assume_holds. intros A1.
  apply Z.leb_le in A1. apply go_passed.
  apply (same_value_check p source ss sd BtoA source (source * p)); try assumption.
  - unfold is_u64, is_u128 in *. unfold u64_max, u128_max in *. lia.
  - rewrite cprice_swap_quote by assumption. unfold price_swap_quote.
    destruct (Z.eqb_spec (source * p) 0); [lia |]. reflexivity.
  - lia.
  - unfold is_u64 in *. unfold u64_max, u128_max in *. lia.
  - cbn. intros a b a' b' E E'. injection E as <- <-. injection E' as <- <-. unfold pool_value. lia.
Qed.

(** ** Two-sided deposits and withdrawals *)

Lemma spl_new_eq' v : 0 <= v <= 2 ^ 200 -> spl_new v = Val (v * 10 ^ 12).
Proof. intros. apply spl_new_eq. assumption. Qed.

Lemma spl_mul_whole v s : 0 <= v -> 0 <= s -> v * s <= 2 ^ 170 ->
  spl_mul (v * 10 ^ 12) (s * 10 ^ 12) = Val (v * s * 10 ^ 12).
Proof.
  intros Hv Hs B. unfold spl_mul, SPL_HALF, SPL_ONE.
  assert (B0 : 0 <= v * s) by nia.
  replace (v * 10 ^ 12 * (s * 10 ^ 12)) with (v * s * 10 ^ 12 * 10 ^ 12) by ring.
  change (10 ^ 12) with 1000000000000.
  rewrite mul_in_eq by (unfold u256_max; lia).
  rewrite add_in_eq by (unfold u256_max; lia). cbn [obind]. rewrite cdiv_eq by discriminate. f_equal.
  symmetry. apply (Z.div_unique _ _ _ 500000000000); lia.
Qed.

Lemma per_token_check v v' s s' : 0 <= v -> 0 <= v' -> 0 <= s <= 2 ^ 200 -> 0 <= s' <= 2 ^ 200 ->
  v * s' <= v' * s <= 2 ^ 170 -> check_value_per_token (v * 10 ^ 12) (v' * 10 ^ 12) s s' = Go tt.
Proof.
  intros Hv Hv' Hs Hs' H. unfold check_value_per_token.
  rewrite !spl_new_eq' by lia. cbn [unwrap tbind].
  rewrite !spl_mul_whole by lia. cbn [unwrap tbind]. apply assert_eq, Z.leb_le.
  apply Z.mul_le_mono_nonneg_r; lia.
Qed.

(** Rounding a share of the half value up twice still covers the share, once it is
    worth two of token B. *)
Lemma up_div_covers x y : 0 < y -> y <= x -> x <= up_div x y * y /\ up_div x y * y < x + y.
Proof.
  intros Hy H. unfold up_div. destruct (Z.ltb_spec x y); [lia |].
  pose proof (div_bounds (x + y - 1) y Hy). lia.
Qed.

Lemma one_of_each_steps p n s a b k : is_u64 p -> 1 <= p < u32_max -> is_u64 n -> is_u64 s -> 1 <= s ->
  is_u64 a -> drawn32 b ->
  (let h := pool_value p a b / 2 in
   2 * p * s <= n * h -> holds (verdict_of k)) ->
  holds (verdict_of (let! _ := assume_one_of_each (pool_value p a b / 2 * 10 ^ 12) n s p in k)).
Proof.
  intros Hp Lp Hn Hs Ls Ha Hb H. apply d32 in Hb. destruct Hb as [Hb Lb].
  pose proof (pool_value_u64 p a b Hp Ha Hb) as [_ HV].
  assert (HV2 : pool_value p a b <= 2 ^ 64 + 2 ^ 64).
  { unfold pool_value, is_u64, u64_max, u32_max in *. nia. }
  unfold assume_one_of_each.
  assert (Hh : 0 <= pool_value p a b / 2 <= 2 ^ 64).
  { split; [apply Z.div_pos; lia | apply Z.div_le_upper_bound; lia]. }
  set (h := pool_value p a b / 2) in *. change (10 ^ 12) with SPL_ONE.
  rewrite to_imprecise_whole by (unfold u128_max; lia). cbn [unwrap tbind].
  unfold is_u64, u64_max, u32_max in *.
  rewrite tmul_eq by (unfold u128_max; nia). cbn [tbind].
  rewrite tmul_eq by (unfold u128_max; nia). cbn [tbind].
  rewrite tmul_eq by (unfold u128_max; nia). cbn [tbind].
  apply assume_holds. intros A. apply Z.leb_le in A. apply H. exact A.
Qed.

(** The half value of the reserves of the tests. *)
Lemma half_small p a b : 1 <= p < u32_max -> is_u64 a -> 1 <= b < u32_max ->
  0 <= pool_value p a b <= 2 ^ 65 - 2 ^ 33 /\ 0 <= pool_value p a b / 2 <= 2 ^ 64 - 2 ^ 32 /\
  pool_value p a b <= 2 * (pool_value p a b / 2) + 1.
Proof.
  intros Hp Ha Hb. assert (0 <= pool_value p a b <= 2 ^ 65 - 2 ^ 33).
  { unfold pool_value, is_u64, u64_max, u32_max in *.
    assert (p * b <= (2 ^ 32 - 2) * (2 ^ 32 - 2)) by (apply Z.mul_le_mono_nonneg; lia). nia. }
  pose proof (div_bounds (pool_value p a b) 2 ltac:(lia)).
  split; [assumption |]. lia.
Qed.

Lemma both_up_covers p x s : 0 < p -> 0 < s -> 2 * p * s <= x ->
  let da := up_div x s in
  let db := up_div (up_div x p) s in
  x <= da * s < x + s /\ da <= p * db /\ p * db * s < x + p + p * s.
Proof.
  intros Hp Hs H. cbv zeta.
  assert (p <= 2 * p * s) by nia. assert (s <= 2 * p * s) by nia.
  pose proof (up_div_covers x s Hs ltac:(lia)) as [A1 A2].
  pose proof (up_div_covers x p Hp ltac:(lia)) as [B1 B2].
  assert (s <= up_div x p) by nia.
  pose proof (up_div_covers (up_div x p) s Hs ltac:(lia)) as [C1 C2].
  set (u := up_div x p) in *. set (db := up_div u s) in *. set (da := up_div x s) in *.
  assert (x <= p * db * s) by nia.
  split; [lia |]. split; nia.
Qed.

Lemma quotient_small x s y : 0 <= x -> 2 ^ 29 <= s -> y <= 2 ^ 129 -> (x - 1) * s < y -> x <= 2 ^ 101.
Proof.
  intros Hx Hs Hy H. destruct (Z.le_gt_cases x (2 ^ 101)); [assumption |].
  assert (2 ^ 101 * 2 ^ 29 <= (x - 1) * s) by (apply Z.mul_le_mono_nonneg; lia). lia.
Qed.

Lemma price_deposit_holds n s a b p :
  drawn 2 u64_max n -> drawn_supply s -> drawn64 a -> drawn32 b -> drawn32 p ->
  holds (price_value_deposit n s a b p).
Proof.
  intros Hn Hs Ha Hb Hp. pose proof Hb as Hb'. pose proof Hs as Hs'. apply dsup in Hs. apply d64 in Ha. apply d32 in Hb, Hp.
  destruct Hs as (Us & Ls & Ms), Ha as (Ua & La & Ma), Hb as (Ub & Lb), Hp as (Up & Lp).
  assert (Un : is_u64 n) by (unfold drawn, is_u64 in *; lia).
  unfold price_value_deposit. cbv zeta. rewrite cprice_value by assumption. cbn [unwrap tbind].
  apply one_of_each_steps; try assumption. cbv zeta. intros A.
  pose proof (half_small p a b Lp Ua Lb) as (V1 & V2 & V3).
  rewrite cprice_both by assumption. unfold price_both_quote, round_div.
  set (h := pool_value p a b / 2) in *.
  assert (Hnh : 0 <= n * h <= 2 ^ 64 * (2 ^ 64 - 2 ^ 32)).
  { unfold is_u64 in Un. apply prod_le; [rewrite u64_max_val in *; lia | lia]. }
  assert (Hnh' : n * h <= 2 ^ 128 - 2 ^ 96) by lia.
  destruct (Z.ltb_spec u128_max (n * h)); [unfold u128_max in *; lia |].
  destruct (Z.eqb_spec s 0); [lia |]. destruct (Z.eqb_spec p 0); [lia |]. cbn [orb unwrap tbind].
  pose proof (both_up_covers p (n * h) s ltac:(lia) ltac:(lia) A) as (C1 & C2 & C3). cbv zeta in C1, C2, C3.
  set (da := up_div (n * h) s) in *. set (db := up_div (up_div (n * h) p) s) in *.
  assert (D0 : 0 <= da) by nia. assert (D1 : 0 <= db) by nia.
  assert (S9 : 2 ^ 29 <= s) by (unfold drawn_supply, drawn, INITIAL_SWAP_POOL_AMOUNT in Hs'; lia).
  unfold is_u64 in *. rewrite u64_max_val in *. unfold u32_max in *.
  assert (E1 : da <= 2 ^ 101) by (apply (quotient_small da s (n * h)); lia).
  assert (E2 : p * db - p + 1 <= 2 ^ 101).
  { destruct (Z.le_gt_cases (p * db - p) 0); [lia |]. apply (quotient_small _ s (n * h + p)); lia. }
  assert (E3 : db <= p * db) by (rewrite <- (Z.mul_1_l db) at 1; apply Z.mul_le_mono_nonneg_r; lia).
  rewrite tadd_eq by (rewrite u128_max_val; lia). cbn [tbind].
  rewrite tadd_eq by (rewrite u128_max_val; lia). cbn [tbind].
  rewrite tadd_eq by (rewrite u128_max_val; lia). cbn [tbind].
  assert (EV : pool_value p (a + da) (b + db) = pool_value p a b + (da + p * db)) by (unfold pool_value; ring).
  rewrite value128; [| unfold is_u64, is_u128; rewrite ?u64_max_val, ?u128_max_val in *; lia .. |
    rewrite u128_max_val, EV; lia]. cbn [unwrap tbind]. rewrite EV.
  pose proof (div_bounds (pool_value p a b + (da + p * db)) 2 ltac:(lia)) as D.
  set (h' := (pool_value p a b + (da + p * db)) / 2) in *.
  pose proof (div_bounds (pool_value p a b) 2 ltac:(lia)) as Dh. fold h in Dh.
  assert (h + da <= h') by lia.
  assert (h' <= 2 ^ 102) by lia.
  assert (h' * s <= 2 ^ 102 * 2 ^ 64) by (apply Z.mul_le_mono_nonneg; lia).
  assert ((h + da) * s <= h' * s) by (apply Z.mul_le_mono_nonneg_r; lia).
  apply go_passed, per_token_check; lia.
Qed.

Lemma price_withdraw_holds n s a b p :
  drawn_part s n -> drawn64 a -> drawn32 b -> drawn32 p -> holds (price_value_withdraw n s a b p).
Proof.
  intros Hn Ha Hb Hp. pose proof Hb as Hb'. apply dpart in Hn. apply d64 in Ha. apply d32 in Hb, Hp.
  destruct Hn as (Us & Un & Ln & Ms), Ha as (Ua & La & Ma), Hb as (Ub & Lb), Hp as (Up & Lp).
  unfold price_value_withdraw. cbv zeta. rewrite cprice_value by assumption. cbn [unwrap tbind].
  apply one_of_each_steps; try assumption; [lia |]. cbv zeta. intros A.
  apply assume_holds. intros _.
  pose proof (half_small p a b Lp Ua Lb) as (V1 & V2 & V3).
  rewrite cprice_both by assumption. unfold price_both_quote, round_div.
  set (h := pool_value p a b / 2) in *.
  assert (Hnh : 0 <= n * h <= 2 ^ 64 * (2 ^ 64 - 2 ^ 32)).
  { unfold is_u64 in Un. apply prod_le; [rewrite u64_max_val in *; lia | lia]. }
  destruct (Z.ltb_spec u128_max (n * h)); [unfold u128_max in *; lia |].
  destruct (Z.eqb_spec s 0); [lia |]. destruct (Z.eqb_spec p 0); [lia |]. cbn [orb unwrap tbind].
  pose proof (div_bounds (n * h) s ltac:(lia)) as C1.
  pose proof (div_bounds (n * h) p ltac:(lia)) as C2.
  pose proof (div_bounds (n * h / p) s ltac:(lia)) as C3.
  set (wa := n * h / s) in *. set (u := n * h / p) in *. set (wb := u / s) in *.
  assert (0 <= wa) by (apply Z.div_pos; lia).
  assert (0 <= u) by (apply Z.div_pos; lia).
  assert (0 <= wb) by (apply Z.div_pos; lia).
  assert (W : p * wb <= wa).
  { apply Z.div_le_lower_bound; [lia |]. assert (p * (wb * s) <= p * u) by (apply Z.mul_le_mono_nonneg_l; lia). lia. }
  apply assume_holds. intros B1. apply assume_holds. intros B2. apply Z.leb_le in B1, B2.
  rewrite !tsub_eq by lia. cbn [tbind].
  assert (EV : pool_value p (a - wa) (b - wb) = pool_value p a b - (wa + p * wb)) by (unfold pool_value; ring).
  unfold is_u64 in *. rewrite u64_max_val in *. unfold u32_max in *.
  rewrite value128; [| unfold is_u64, is_u128; rewrite ?u64_max_val, ?u128_max_val in *; lia .. |
    rewrite u128_max_val, EV; assert (0 <= p * wb) by (apply Z.mul_nonneg_nonneg; lia); lia].
  cbn [unwrap tbind]. rewrite EV.
  assert (Vp : 0 <= pool_value p a b - (wa + p * wb)).
  { rewrite <- EV. unfold pool_value. assert (0 <= p * (b - wb)) by (apply Z.mul_nonneg_nonneg; lia). lia. }
  pose proof (div_bounds (pool_value p a b - (wa + p * wb)) 2 ltac:(lia)) as D.
  set (h' := (pool_value p a b - (wa + p * wb)) / 2) in *.
  pose proof (div_bounds (pool_value p a b) 2 ltac:(lia)) as Dh. fold h in Dh.
  assert (0 <= p * wb) by (apply Z.mul_nonneg_nonneg; lia).
  assert (h - wa <= h') by lia.
  assert (h' <= 2 ^ 65) by lia.
  assert (h' * s <= 2 ^ 65 * 2 ^ 64) by (apply Z.mul_le_mono_nonneg; lia).
  assert ((h - wa) * s <= h' * s) by (apply Z.mul_le_mono_nonneg_r; lia).
  apply go_passed, per_token_check; lia.
Qed.

(** ** Deposits and withdrawals of one token against a trade and both tokens *)

(** The supply after the first of two deposits may need more than 64 bits. *)
Lemma deposit_single_wide p source a b supply d :
  is_u64 p -> is_u64 source -> is_u128 a -> is_u128 b -> 0 <= supply <= u128_max ->
  supply * value_of p source d <= u128_max * pool_value p a b -> 0 < pool_value p a b ->
  calc_deposit_single (ConstantPrice p) source a b supply d
  = Val (supply * value_of p source d / pool_value p a b).
Proof.
  intros Hp Hs Ha Hb Hn Hq Hv. change (calc_deposit_single (ConstantPrice p) source a b supply d)
    with (trading_tokens_to_pool_tokens p source a b supply d Floor).
  unfold is_u64, is_u128 in *. unfold trading_tokens_to_pool_tokens.
  pose proof (prod_le source p u64_max u64_max Hs Hp).
  pose proof (prod_le b p u128_max u64_max Hb Hp).
  assert (Hg : match d with AtoB => Val source | BtoA => mul_in u256_max source p end
               = Val (value_of p source d) /\ 0 <= value_of p source d <= u64_max * u64_max).
  { destruct d; unfold value_of.
    - consts. split; [reflexivity | lia].
    - rewrite mul_in_eq by (consts; lia). rewrite (Z.mul_comm source). split; [reflexivity | lia]. }
  destruct Hg as [-> Hg]. cbn [obind].
  rewrite mul_in_eq by (consts; lia). cbn [obind].
  rewrite add_in_eq by (consts; lia). cbn [obind].
  replace (b * p + a) with (pool_value p a b) by (unfold pool_value; lia).
  pose proof (prod_le supply (value_of p source d) u128_max (u64_max * u64_max) Hn Hg) as Hx.
  set (v := value_of p source d) in *. set (t := pool_value p a b) in *.
  unfold as_u128. cbv beta iota.
  rewrite mul_in_eq by (consts; lia). cbn [obind]. rewrite cdiv_eq by lia. cbn [obind].
  assert (supply * v / t <= u128_max) by (apply Z.div_le_upper_bound; lia).
  destruct (Z.leb_spec (supply * v / t) u128_max); [reflexivity | lia].
Qed.

(** Splitting a deposit of little value: the pool tokens differ by the rounding and by
    what the first part adds to the supply. *)
Lemma split_deposit supply V S1 S2 : 0 <= supply -> 0 < V -> 0 <= S2 <= S1 -> 200 * (S1 + S2) <= V ->
  let one := supply * (S1 + S2) / V in
  let t1 := supply * S1 / V in
  let t2 := (supply + t1) * S2 / V in
  0 <= t1 /\ 0 <= t2 /\ t1 + t2 <= supply /\
  (if t1 + t2 <=? one then one - (t1 + t2) else t1 + t2 - one) <= Z.max 1 ((t1 + t2) * 50 / 10000).
Proof.
  intros Hs HV H12 H. cbv zeta.
  pose proof (div_bounds (supply * (S1 + S2)) V HV) as D0.
  pose proof (div_bounds (supply * S1) V HV) as D1.
  set (one := supply * (S1 + S2) / V) in *. set (t1 := supply * S1 / V) in *.
  pose proof (div_bounds ((supply + t1) * S2) V HV) as D2.
  assert (T1 : 0 <= t1) by (apply Z.div_pos; nia).
  assert (T2 : 0 <= (supply + t1) * S2 / V) by (apply Z.div_pos; nia).
  set (t2 := (supply + t1) * S2 / V) in *.
  assert (U1 : 200 * t1 <= supply).
  { apply Z.mul_le_mono_pos_r with V; [assumption |].
    assert (200 * (supply * S1) <= supply * V) by nia. nia. }
  assert (U2 : 200 * t2 <= supply + t1).
  { apply Z.mul_le_mono_pos_r with V; [assumption |].
    assert (200 * ((supply + t1) * S2) <= (supply + t1) * V) by nia. nia. }
  split; [assumption |]. split; [assumption |]. split; [lia |].
  assert (E : (supply + t1) * S2 = supply * S2 + t1 * S2) by ring.
  assert (E0 : supply * (S1 + S2) = supply * S1 + supply * S2) by ring.
  destruct (Z.leb_spec (t1 + t2) one).
  - assert (one - (t1 + t2) < 2); [| lia].
    apply Z.mul_lt_mono_pos_r with V; [assumption |].
    assert (0 <= t1 * S2) by nia. lia.
  - assert (M : (t1 + t2 - one) * V < V + t1 * S2) by lia.
    pose proof (div_bounds ((t1 + t2) * 50) 10000 ltac:(lia)) as D3.
    destruct (Z.le_gt_cases V (t1 * S2)) as [L | L].
    + assert (P : 400 * (t1 * S2) <= t1 * V) by nia.
      assert (P1 : 400 <= t1) by (apply Z.mul_le_mono_pos_r with V; lia).
      assert (P2 : 400 * (t1 + t2 - one) < 400 + t1) by (apply Z.mul_lt_mono_pos_r with V; lia).
      lia.
    + assert (t1 + t2 - one < 2); [| lia]. apply Z.mul_lt_mono_pos_r with V; [assumption |]. lia.
Qed.

(** The test itself, for both directions. *)
Lemma price_deposit_check p source ss sd sup d src dst :
  1 <= p -> is_u64 p -> is_u64 source -> is_u64 ss -> is_u64 sd -> is_u64 sup -> 1 <= ss ->
  swap_without_fees (ConstantPrice p) (source / 2) ss sd d = Val (src, dst) ->
  0 <= src -> 2 * src <= source -> 0 <= dst <= sd ->
  value_of p src d = value_of p dst (opposite d) ->
  (forall a b, in_order d ss sd = (a, b) -> 200 * value_of p source d <= pool_value p a b) ->
  check_deposit_token_conversion (ConstantPrice p) source ss sd d sup 50 = Go tt.
Proof.
  intros Lp Hp Hs Hss Hsd Hsup Lss E L0 L1 L2 Hv Hsmall. unfold check_deposit_token_conversion. cbv zeta.
  rewrite E. cbn [unwrap tbind].
  destruct (in_order d ss sd) as [a b] eqn:Eo. specialize (Hsmall a b eq_refl).
  assert (Hab : is_u64 a /\ is_u64 b /\ 1 <= a + b) by (unfold is_u64 in *; destruct d; cbn in Eo; injection Eo as <- <-; lia).
  destruct Hab as (Ha & Hb & Hab).
  pose proof (pool_value_u64 p a b Hp Ha Hb) as [Hv0 Hv1].
  assert (V0 : 0 < pool_value p a b) by (unfold pool_value, is_u64 in *; nia).
  unfold is_u64 in *. rewrite u64_max_val in *.
  rewrite (tadd_eq ss src) by (rewrite u128_max_val; lia). cbn [tbind].
  rewrite tsub_eq by lia. cbn [tbind].
  destruct (in_order d (ss + src) (sd - dst)) as [a' b'] eqn:Eo'.
  assert (Hab' : is_u128 a' /\ is_u128 b' /\ pool_value p a' b' = pool_value p a b).
  { unfold is_u128, pool_value in *. rewrite u128_max_val.
    destruct d; cbn in Eo, Eo', Hv; injection Eo as <- <-; injection Eo' as <- <-; lia. }
  destruct Hab' as (Ha' & Hb' & EV).
  rewrite tsub_eq by lia. cbn [tbind].
  set (V := pool_value p a b) in *.
  set (S1 := value_of p (source - src) d). set (S2 := value_of p dst (opposite d)).
  assert (S12 : value_of p source d = S1 + S2) by (unfold S1, S2; rewrite <- Hv; destruct d; unfold value_of; lia).
  assert (S0 : 0 <= S2 <= S1).
  { unfold S1, S2. rewrite <- Hv. destruct d; unfold value_of; [lia |]. nia. }
  pose proof (split_deposit sup V S1 S2 ltac:(lia) V0 S0 ltac:(lia)) as (T1 & T2 & T3 & T4). cbv zeta in T1, T2, T3, T4.
  assert (B1 : sup * (S1 + S2) <= u128_max * V) by (rewrite u128_max_val in *; nia).
  assert (B2 : sup * S1 <= u128_max * V) by (rewrite u128_max_val in *; nia).
  assert (SB : (sup + sup * S1 / V) * S2 <= u128_max * V) by (rewrite u128_max_val in *; nia).
  assert (sup * S1 / V <= sup) by lia.
  rewrite deposit_single_wide;
    [| unfold is_u64, is_u128 in *; rewrite ?u64_max_val, ?u128_max_val in *; fold V; lia .. ].
  cbn [unwrap tbind]. rewrite deposit_single_wide;
    [| unfold is_u64, is_u128 in *; rewrite ?u64_max_val, ?u128_max_val in *; rewrite ?EV; fold V S1; lia .. ].
  cbn [unwrap tbind]. rewrite EV. fold V S1.
  rewrite tadd_eq by (rewrite u128_max_val; lia). cbn [tbind].
  rewrite deposit_single_wide;
    [| unfold is_u64, is_u128 in *; rewrite ?u64_max_val, ?u128_max_val in *; rewrite ?EV; fold V S1 S2; lia .. ].
  cbn [unwrap tbind]. rewrite EV. fold V S2. fold V. rewrite S12.
  rewrite tadd_eq by (rewrite u128_max_val; lia). cbn [tbind].
  rewrite tmul_eq by (rewrite u128_max_val; lia). cbn [tbind].
  apply assert_eq, Z.leb_le. exact T4.
Qed.

Lemma price_deposit_conversion_a_to_b_small source ss sd sup p :
  drawn 2 u64_max source -> drawn64 ss -> drawn64 sd -> drawn_supply sup -> drawn64 p ->
  200 * source <= ss + p * sd -> holds (price_deposit_conversion_a_to_b source ss sd sup p).
Proof.
  intros H1 H2 H3 H4 H5 H. apply d64 in H2, H3, H5. apply dsup in H4.
  destruct H2 as (U2 & L2 & M2), H3 as (U3 & L3 & M3), H4 as (U4 & L4 & M4), H5 as (U5 & L5 & M5).
  assert (U1 : is_u64 source) by (unfold drawn, is_u64 in *; lia).
  unfold price_deposit_conversion_a_to_b. cbv zeta. apply assume_holds. intros A1. apply assume_holds. intros A2.
  apply Z.leb_le in A1, A2. apply go_passed. unfold CONVERSION_BASIS_POINTS_GUARANTEE.
  pose proof (div_bounds source 2 ltac:(lia)) as DH. set (t := source / 2) in *.
  pose proof (Z.div_mod t p ltac:(lia)) as DM. pose proof (Z.mod_pos_bound t p ltac:(lia)) as MB.
  assert (p <= t) by nia. unfold drawn in H1.
  apply (price_deposit_check p source ss sd sup AtoB (t - t mod p) (t / p)); try assumption; try lia.
  - fold t. rewrite cprice_swap_quote; [| assumption | unfold is_u64 in *; lia]. unfold price_swap_quote.
    destruct (Z.eqb_spec p 0); [lia |]. destruct (Z.ltb_spec t p); [lia |]. reflexivity.
  - cbn. unfold value_of. lia.
  - intros a b E. cbn in E. injection E as <- <-. unfold pool_value, value_of. lia.
Qed.

Lemma price_deposit_conversion_b_to_a_small source ss sd sup p :
  drawn 2 u32_max source -> drawn64 ss -> drawn64 sd -> drawn_supply sup -> drawn32 p ->
  200 * (p * source) <= sd + p * ss -> holds (price_deposit_conversion_b_to_a source ss sd sup p).
Proof.
  intros H1 H2 H3 H4 H5 H. apply d64 in H2, H3. apply dsup in H4. apply d32 in H5.
  destruct H2 as (U2 & L2 & M2), H3 as (U3 & L3 & M3), H4 as (U4 & L4 & M4), H5 as (U5 & L5).
  unfold drawn in H1. assert (U1 : is_u64 source) by (unfold u32_max, is_u64, u64_max in *; lia).
  unfold price_deposit_conversion_b_to_a.
  assert (0 < p * source <= u32_max * u32_max) by nia.
  rewrite tmul_eq by (unfold u32_max, u128_max in *; lia). cbn [tbind]. apply assume_holds. intros A1.
  apply Z.leb_le in A1. apply go_passed. unfold CONVERSION_BASIS_POINTS_GUARANTEE.
  pose proof (div_bounds source 2 ltac:(lia)) as DH.
  pose proof (div_bounds (p * source) 2 ltac:(lia)) as DV. set (t := source / 2) in *.
  assert (p * t <= p * source / 2) by (apply Z.div_le_lower_bound; nia).
  assert (0 < t) by lia. assert (0 < t * p) by nia.
  apply (price_deposit_check p source ss sd sup BtoA t (t * p)); try assumption; try lia.
  - fold t. rewrite cprice_swap_quote; [| assumption | unfold is_u64 in *; lia]. unfold price_swap_quote.
    destruct (Z.eqb_spec (t * p) 0); [lia |]. reflexivity.
  - cbn. unfold value_of. lia.
  - intros a b E. cbn in E. injection E as <- <-. unfold pool_value, value_of. lia.
Qed.

Lemma share_back n V X : 1 <= n -> 0 < V -> 200 * (n * V - X) < n * V -> X <= n * V ->
  let q := up_div X V in
  0 <= q <= n /\ n - q <= Z.max 1 (n * 50 / 10000).
Proof.
  intros Hn HV H1 H2. cbv zeta. unfold up_div.
  pose proof (div_bounds (n * 50) 10000 ltac:(lia)) as D.
  destruct (Z.ltb_spec X V).
  - assert (n < 2). { destruct (Z.le_gt_cases 2 n); [| lia]. assert (2 * V <= n * V) by (apply Z.mul_le_mono_nonneg_r; lia). lia. }
    replace n with 1 in * by lia. destruct (Z.leb_spec V (2 * X)); lia.
  - pose proof (div_bounds (X + V - 1) V HV) as E. set (q := (X + V - 1) / V) in *.
    assert (0 < q) by (apply Z.mul_lt_mono_pos_r with V; lia). assert (q < n + 1) by (apply Z.mul_lt_mono_pos_r with V; lia).
    assert (200 * (n - q) < n) by (apply Z.mul_lt_mono_pos_r with V; lia). lia.
Qed.

Lemma price_withdraw_conversion_large n s a b p :
  drawn_part s n -> drawn64 a -> drawn32 b -> drawn32 p ->
  800 * p * s <= n * (a + p * b) -> holds (price_withdraw_conversion n s a b p).
Proof.
  intros Hn Ha Hb Hp HL. pose proof Hb as Hb'. apply dpart in Hn. apply d64 in Ha. apply d32 in Hb, Hp.
  destruct Hn as (Us & Un & Ln & Ms), Ha as (Ua & La & Ma), Hb as (Ub & Lb), Hp as (Up & Lp).
  unfold price_withdraw_conversion. cbv zeta. rewrite cprice_value by assumption. cbn [unwrap tbind].
  apply one_of_each_steps; try assumption; [lia |]. cbv zeta. intros A.
  unfold check_withdraw_token_conversion, CONVERSION_BASIS_POINTS_GUARANTEE.
  pose proof (half_small p a b Lp Ua Lb) as (V1 & V2 & V3).
  rewrite cprice_both by assumption. unfold price_both_quote, round_div.
  change (a + p * b) with (pool_value p a b) in HL.
  assert (V0 : 0 < pool_value p a b) by (unfold pool_value; assert (0 < p * b) by (apply Z.mul_pos_pos; lia); lia).
  set (h := pool_value p a b / 2) in *.
  assert (Hnh : 0 <= n * h <= 2 ^ 64 * (2 ^ 64 - 2 ^ 32)).
  { unfold is_u64 in Un. apply prod_le; [rewrite u64_max_val in *; lia | lia]. }
  destruct (Z.ltb_spec u128_max (n * h)); [unfold u128_max in *; lia |].
  destruct (Z.eqb_spec s 0); [lia |]. destruct (Z.eqb_spec p 0); [lia |]. cbn [orb unwrap tbind].
  pose proof (div_bounds (n * h) s ltac:(lia)) as C1.
  pose proof (div_bounds (n * h) p ltac:(lia)) as C2.
  pose proof (div_bounds (n * h / p) s ltac:(lia)) as C3.
  assert (Lu : 2 * s <= n * h / p) by (apply Z.div_le_lower_bound; lia).
  set (wa := n * h / s) in *. set (u := n * h / p) in *.
  assert (Lwb : 2 <= u / s) by (apply Z.div_le_lower_bound; lia).
  set (wb := u / s) in *.
  assert (0 <= wa) by (apply Z.div_pos; lia).
  assert (W : p * wb <= wa).
  { apply Z.div_le_lower_bound; [lia |]. assert (p * (wb * s) <= p * u) by (apply Z.mul_le_mono_nonneg_l; lia). lia. }
  assert (W' : n * h < p * ((wb + 1) * s)).
  { assert (p * (u + 1) <= p * ((wb + 1) * s)) by (apply Z.mul_le_mono_nonneg_l; lia). lia. }
  assert (Lwa : 2 * p <= wa).
  { assert (p * 2 <= p * wb) by (apply Z.mul_le_mono_nonneg_l; lia). lia. }
  apply assume_holds. intros B1. apply assume_holds. intros B2. apply Z.leb_le in B1, B2.
  assert (Swa : swap_without_fees (ConstantPrice p) wa (a - wa) (b - wb) AtoB = Val (wa - wa mod p, wa / p)).
  { rewrite cprice_swap_quote; [| assumption | unfold is_u64 in *; lia]. unfold price_swap_quote.
    destruct (Z.eqb_spec p 0); [lia |]. destruct (Z.ltb_spec wa p); [lia |]. reflexivity. }
  assert (Swb : swap_without_fees (ConstantPrice p) wb (b - wb) (a - wa) BtoA = Val (wb, wb * p)).
  { rewrite cprice_swap_quote; [| assumption | unfold is_u64 in *; lia]. unfold price_swap_quote.
    assert (0 < wb * p) by (apply Z.mul_pos_pos; lia). destruct (Z.eqb_spec (wb * p) 0); [lia |]. reflexivity. }
  pose proof (div_bounds wa p ltac:(lia)) as C4. set (x := wa / p) in *.
  assert (0 <= x) by (apply Z.div_pos; lia).
  assert (Hx : x <= wa) by (apply Z.div_le_upper_bound; [lia |]; rewrite <- (Z.mul_1_l wa) at 1; apply Z.mul_le_mono_nonneg_r; lia).
  unfold is_u64 in *. rewrite u64_max_val in *. unfold u32_max in *.
  rewrite !tsub_eq by lia. cbn [tbind]. rewrite Swa, Swb. cbn [unwrap tbind].
  rewrite !tadd_eq by (rewrite u128_max_val; lia). cbn [tbind].
  set (V := pool_value p a b) in *.
  assert (T : forall val, wa - p + p * wb <= val <= wa + wa ->
    exists q, up_div (s * val) V = q /\ 0 <= q <= n /\ n - q <= Z.max 1 (n * 50 / 10000)).
  { intros val Hval. eexists. split; [reflexivity |].
    assert (M1 : s * (wa - p + p * wb) <= s * val) by (apply Z.mul_le_mono_nonneg_l; lia).
    assert (M2 : s * val <= s * (wa + wa)) by (apply Z.mul_le_mono_nonneg_l; lia).
    apply share_back; [lia | lia | |].
    - assert (n * V <= n * (2 * h + 1)) by (apply Z.mul_le_mono_nonneg_l; lia).
      assert (s <= p * s) by (rewrite <- (Z.mul_1_l s) at 1; apply Z.mul_le_mono_nonneg_r; lia).
      lia.
    - assert (n * (2 * h) <= n * V). { apply Z.mul_le_mono_nonneg_l; [lia |]. unfold h. pose proof (div_bounds V 2 ltac:(lia)). lia. }
      lia. }
  destruct (T (p * (wb + x)) ltac:(lia)) as (q1 & Q1 & R1 & R1').
  destruct (T (wa + wb * p) ltac:(lia)) as (q2 & Q2 & R2 & R2').
  assert (E1 : calc_withdraw_single (ConstantPrice p) (wb + x) a b s (opposite AtoB) = Val q1).
  { destruct (cprice_singles p (wb + x) a b s BtoA) as [_ E];
      [unfold is_u64, is_u128; rewrite ?u64_max_val, ?u128_max_val in *; lia .. |]. cbn [opposite]. rewrite E.
    unfold price_single_quote, round_div, value_of. fold V. destruct (Z.eqb_spec V 0); [lia |]. rewrite Q1.
    destruct (Z.leb_spec q1 u128_max) as [|X]; [reflexivity | rewrite u128_max_val in X; lia]. }
  assert (E2 : calc_withdraw_single (ConstantPrice p) (wa + wb * p) a b s (opposite BtoA) = Val q2).
  { destruct (cprice_singles p (wa + wb * p) a b s AtoB) as [_ E];
      [unfold is_u64, is_u128; rewrite ?u64_max_val, ?u128_max_val in *; lia .. |]. cbn [opposite]. rewrite E.
    unfold price_single_quote, round_div, value_of. fold V. destruct (Z.eqb_spec V 0); [lia |]. rewrite Q2.
    destruct (Z.leb_spec q2 u128_max) as [|X]; [reflexivity | rewrite u128_max_val in X; lia]. }
  rewrite E1, E2. cbn [unwrap tbind]. rewrite tmul_eq by (rewrite u128_max_val; lia). cbn [tbind].
  apply go_passed.
  destruct (Z.leb_spec q1 n); [| lia]. destruct (Z.leb_spec q2 n); [| lia].
  rewrite assert_eq by (apply Z.leb_le; assumption). cbn [tbind].
  apply assert_eq, Z.leb_le. assumption.
Qed.
