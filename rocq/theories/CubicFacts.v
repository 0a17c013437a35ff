(** The value of a stable pool in test builds. *)
From Coq Require Import QArith Qabs Lqa.
From Verif Require Import Ints Tactics SplMath SwapCurve StableCurve RandomTests TestSpec StableTest CubicSpec DfsFacts CurveFacts
  QuoteSpec QuoteFacts QuoteCurves TestFacts TestProduct.
Local Open Scope Z_scope.

Lemma inject_nonneg z : 0 <= z -> (0 <= inject_Z z)%Q.
Proof. intros H. change 0%Q with (inject_Z 0). rewrite <- Zle_Qle. exact H. Qed.

Lemma cubic_zero c d : (cubic c d 0 == inject_Z d)%Q.
Proof. unfold cubic. ring. Qed.

Lemma cubic_right c d x : 0 <= c -> 0 <= d -> (0 <= x)%Q -> (inject_Z d <= cubic c d x)%Q.
Proof.
  intros Hc Hd Hx. unfold cubic. apply inject_nonneg in Hc.
  assert (H1 : (0 <= inject_Z c * x)%Q) by (apply Qmult_le_0_compat; assumption).
  assert (H2 : (0 <= x * x * x)%Q) by (apply Qmult_le_0_compat; [apply Qmult_le_0_compat; assumption | assumption]).
  lra.
Qed.

Lemma root_nonpos c d x : 0 <= c -> 0 < d -> (cubic c d x == 0)%Q -> (x < 0)%Q.
Proof.
  intros Hc Hd H. destruct (Qlt_le_dec x 0) as [L | L]; [exact L |].
  pose proof (cubic_right c d x Hc ltac:(lia) L) as R. rewrite H in R.
  change 0%Q with (inject_Z 0) in R. rewrite <- Zle_Qle in R. lia.
Qed.

Lemma solved_nonpos solve c d : solves solve -> 0 <= c -> 0 <= d -> (solve c d <= 0)%Q.
Proof.
  intros S Hc Hd. destruct (S c d Hc Hd) as [H | (_ & H)]; [| rewrite H; apply Qle_refl].
  destruct (Qlt_le_dec (solve c d) 0) as [L | L]; [apply Qlt_le_weak; exact L |].
  pose proof (cubic_right c d _ Hc Hd L) as R. pose proof (inject_nonneg d Hd) as D.
  rewrite cubic_zero in H. rewrite !Qabs_pos in H by lra. lra.
Qed.

Lemma round_nonpos q : (q <= 0)%Q -> round q <= 0.
Proof.
  intros H. unfold Qle in H. cbn in H. unfold round. destruct (Z.leb_spec 0 (Qnum q)) as [L | L].
  - replace (Qnum q) with 0 by lia. change (2 * 0 + Zpos (Qden q)) with (Zpos (Qden q)).
    rewrite Z.div_small; lia.
  - pose proof (Z.div_pos (2 * - Qnum q + Zpos (Qden q)) (2 * Zpos (Qden q)) ltac:(lia) ltac:(lia)). lia.
Qed.

Lemma value_nonpos x : (x <= 0)%Q -> value_of_root x = Val 0.
Proof.
  intros H. unfold value_of_root. assert (E : saturate_u128 (round (x * inject_Z (10 ^ 11))%Q) = 0).
  { unfold saturate_u128. assert (R : round (x * inject_Z (10 ^ 11))%Q <= 0); [| lia].
    apply round_nonpos. assert ((0 <= inject_Z (10 ^ 11))%Q) by (apply inject_nonneg; lia). nra. }
  rewrite E. vm_compute. reflexivity.
Qed.

Lemma d_nonneg amp a b : 0 <= amp -> 0 <= a -> 0 <= b -> 0 <= cubic_d amp a b.
Proof. intros. unfold cubic_d. repeat apply Z.mul_nonneg_nonneg; lia. Qed.

Lemma c_nonneg amp : 1 <= amp -> 0 <= cubic_c amp.
Proof. unfold cubic_c. lia. Qed.
Lemma d_pos amp a b : 1 <= amp -> 0 < a -> 0 < b -> 0 < cubic_d amp a b.
Proof. intros. unfold cubic_d. repeat apply Z.mul_pos_pos; lia. Qed.

Lemma test_value_zero solve amp a b : solves solve -> 1 <= amp -> 0 <= a -> 0 <= b -> test_value solve amp a b = Val 0.
Proof.
  intros S Ha H1 H2. unfold test_value. apply value_nonpos, solved_nonpos; [exact S | unfold cubic_c; lia | apply d_nonneg; lia].
Qed.

(** ** The tests see nothing *)
Lemma swap_test_blind solve amp trade source ss sd d src dst : solves solve -> 1 <= amp -> 0 <= ss -> 0 <= sd ->
  trade source ss sd d = Val (src, dst) -> 0 <= src -> ss + src <= u128_max -> 0 <= dst <= sd ->
  swap_test (test_value solve amp) trade source ss sd d = Go tt.
Proof.
  intros S Ha H1 H2 E H3 H4 H5. unfold swap_test. rewrite E. cbn [unwrap tbind].
  rewrite (unwrap_eq _ _ _ (add_in_eq _ _ _ H4)), (unwrap_eq _ _ _ (csub_eq _ _ (proj2 H5))).
  destruct d; cbn [in_order]; rewrite test_value_zero by (assumption || lia); cbn [unwrap tbind];
    rewrite test_value_zero by (assumption || lia); vm_compute; reflexivity.
Qed.

Lemma per_token_zero s s' : 0 <= s <= u128_max -> 0 <= s' <= u128_max -> check_value_per_token 0 0 s s' = Go tt.
Proof.
  intros H1 H2. unfold check_value_per_token, spl_new. rewrite u128_max_val in *.
  assert (B : forall x, 0 <= x <= 340282366920938463463374607431768211455 -> mul_in u256_max x SPL_ONE = Val (x * SPL_ONE)).
  { intros x Hx. apply mul_in_eq. unfold SPL_ONE, u256_max.
    change (2 ^ 256 - 1) with 115792089237316195423570985008687907853269984665640564039457584007913129639935. lia. }
  rewrite !B by assumption. cbn [unwrap tbind]. unfold spl_mul. rewrite !mul_in_eq by (vm_compute; congruence).
  vm_compute. reflexivity.
Qed.

Lemma withdrawal_test_blind solve amp payout n s a b wa wb : solves solve -> 1 <= amp -> 0 <= n <= s -> s <= u128_max ->
  payout n s a b = Val (wa, wb) -> 0 <= wa <= a -> 0 <= wb <= b ->
  withdrawal_test (test_value solve amp) payout n s a b = Go tt.
Proof.
  intros S Ha H1 H2 E H3 H4. unfold withdrawal_test. rewrite E. cbn [unwrap tbind].
  rewrite !tsub_eq by lia. cbn [tbind]. rewrite !test_value_zero by (assumption || lia). cbn [unwrap tbind].
  apply per_token_zero; lia.
Qed.

(** ** The tests of this program *)
Lemma stable_swap_passes solve amp source ss sd : solves solve -> drawn 1 100 amp -> drawn64 source -> drawn64 ss -> drawn64 sd ->
  passes_with_a_trade (stable_swap_test solve amp source ss sd) (swap_without_fees (Stable amp) source ss sd AtoB).
Proof.
  intros S Ha H1 H2 H3. unfold drawn in Ha. apply d64 in H1, H2, H3. unfold is_u64 in *. rewrite u64_max_val in *.
  unfold passes_with_a_trade, stable_swap_test. destruct (swap_without_fees (Stable amp) source ss sd AtoB) as [(src, dst) | |] eqn:E.
  - left. split; [eexists; reflexivity |].
    pose proof E as E'. cbn [swap_without_fees] in E'. destruct (stable_swap_spec amp source ss sd src dst) as (-> & D); try assumption; try lia.
    rewrite (swap_test_blind solve amp _ source ss sd AtoB source dst); try assumption; try lia; [reflexivity |].
    rewrite u128_max_val. lia.
  - right. split; [discriminate |]. unfold swap_test. rewrite E. reflexivity.
  - right. split; [discriminate |]. unfold swap_test. rewrite E. reflexivity.
Qed.

Lemma stable_withdrawal_passes solve amp n s a b : solves solve -> drawn 1 100 amp -> drawn_part s n -> drawn64 a -> drawn64 b ->
  holds (stable_withdrawal_test solve amp n s a b).
Proof.
  intros S Hamp Hn Ha Hb. pose proof (d64 b Hb) as (U4 & L4 & M4).
  pose proof (d64 a Ha) as (U3 & L3 & _). pose proof (dpart s n Hn) as (U2 & U1 & Ln & Ms).
  unfold stable_withdrawal_test.
  apply (shares_assumed 0 n s a b _ holds); rewrite ?Z.add_0_r; try assumption; try (unfold drawn64, drawn; lia); [right; reflexivity |].
  intros _ _. left. assert (E : pool_tokens_to_trading_tokens (Stable amp) n s a b Floor = ratio_quote n s a b Floor).
  { change (pool_tokens_to_trading_tokens ConstantProduct n s a b Floor = ratio_quote n s a b Floor). apply both_quotes; assumption. }
  unfold ratio_quote, share_of in E. destruct (Z.eqb_spec s 0); [unfold is_u64 in *; lia |].
  destruct (share_left n a s) as (W1 & W2 & W3); [unfold is_u64 in *; lia | lia |].
  destruct (share_left n b s) as (X1 & X2 & X3); [unfold is_u64 in *; lia | lia |].
  rewrite (withdrawal_test_blind solve amp _ n s a b (n * a / s) (n * b / s) S); [reflexivity | unfold drawn in Hamp; lia | unfold is_u64 in *; lia | | exact E | lia | lia].
  unfold is_u64 in *. rewrite u64_max_val in *. rewrite u128_max_val. lia.
Qed.

(** ** A solver *)
Definition small_step : solver := fun c d => - (Z.min d (c + 1)) # Z.to_pos (c + 1).

Lemma small_step_solves : solves small_step.
Proof.
  intros c d Hc Hd. unfold small_step. destruct (Z.eq_dec d 0) as [-> | N].
  - right. split; [rewrite cubic_zero; reflexivity |]. rewrite Z.min_l by lia. reflexivity.
  - left. rewrite cubic_zero, (Qabs_pos (inject_Z d)) by (apply inject_nonneg; exact Hd).
    set (t := Z.min d (c + 1) # Z.to_pos (c + 1)).
    assert (E : (- Z.min d (c + 1) # Z.to_pos (c + 1) == - t)%Q) by reflexivity.
    assert (M : 1 <= Z.min d (c + 1) /\ Z.min d (c + 1) <= d /\ Z.min d (c + 1) <= c + 1) by lia.
    assert (T0 : (0 < t)%Q) by (unfold t, Qlt; cbn; lia).
    assert (T1 : (t <= 1)%Q) by (unfold t, Qle; cbn; rewrite Z2Pos.id by lia; lia).
    assert (T2 : ((inject_Z c + 1) * t <= inject_Z d)%Q).
    { assert (E2 : ((inject_Z c + 1) * t == inject_Z (Z.min d (c + 1)))%Q).
      { unfold t, Qeq. cbn. rewrite !Z2Pos.id by lia. ring. }
      rewrite E2, <- Zle_Qle. lia. }
    assert (C0 : (0 <= inject_Z c)%Q) by (apply inject_nonneg; exact Hc).
    unfold cubic. rewrite E. generalize dependent t. intros t E T0 T1 T2.
    assert (A1 : (0 <= inject_Z c * t)%Q) by (apply Qmult_le_0_compat; [exact C0 | apply Qlt_le_weak; exact T0]).
    assert (A2 : (0 < t * t)%Q) by nra. assert (A3 : (t * t <= 1)%Q) by nra.
    assert (A4 : (0 < t * t * t)%Q) by nra. assert (A5 : (t * t * t <= t)%Q) by nra.
    assert (A6 : (inject_Z c * t + t <= inject_Z d)%Q) by lra.
    assert (A7 : (- t * - t * - t == - (t * t * t))%Q) by ring. assert (A8 : (inject_Z c * - t == - (inject_Z c * t))%Q) by ring.
    rewrite A7, A8. apply Qabs_Qlt_condition. split; lra.
Qed.

(** ** A trade and a withdrawal that nobody would want *)
Lemma blind_witness : exists amp source ss sd n s a b,
  drawn 1 100 amp /\ drawn64 source /\ drawn64 ss /\ drawn64 sd /\ drawn_part s n /\ drawn64 a /\ drawn64 b /\
  (forall solve, solves solve ->
     verdict_of (swap_test (test_value solve amp) give_all source ss sd AtoB) = Passed /\
     verdict_of (withdrawal_test (test_value solve amp) pay_all n s a b) = Passed) /\
  verdict_of (swap_test (normalized_value (Stable amp)) give_all source ss sd AtoB) = Violated /\
  verdict_of (withdrawal_test (normalized_value (Stable amp)) pay_all n s a b) = Violated.
Proof.
  exists 7, 1, 1000, 1000, 1, 2, 1000, 1000.
  split; [unfold drawn; lia |]. do 3 (split; [unfold drawn64, drawn, u64_max; lia |]).
  split; [unfold drawn_part, drawn64, drawn, u64_max; lia |]. do 2 (split; [unfold drawn64, drawn, u64_max; lia |]).
  split; [| split; vm_compute; reflexivity].
  intros solve S. split.
  - rewrite (swap_test_blind solve 7 give_all 1 1000 1000 AtoB 1 1000 S); [reflexivity | lia | lia | lia | reflexivity | lia | vm_compute; congruence | lia].
  - rewrite (withdrawal_test_blind solve 7 pay_all 1 2 1000 1000 1000 1000 S); [reflexivity | lia | lia | vm_compute; congruence | reflexivity | lia | lia].
Qed.
