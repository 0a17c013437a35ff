(** Every run of the fuzz test of up to 100000 instructions passes. *)
From Verif Require Import Ints Tactics SplMath Fees LinearCurve ConstantPrice SwapCurve Codec Token Processor Api History
  Spec LedgerSpec TotalSpec TokenFacts EffectFacts HistoryFacts LiquidityFacts VaultFacts RootFacts QuoteCurves LedgerExamples HistoryExamples
  Fuzz FuzzSpec FuzzState FuzzFacts FuzzRun FuzzEnd FuzzMain FuzzValue FuzzMoves.

Definition at_world (P : Z -> Z -> Z -> Z -> Prop) (w : world) : Prop :=
  P (pool_worth w) (balance w 301) (unit_value * supply w 403) (unit_value * balance w 303).

Lemma after_range n w : 0 <= n <= 100000 -> after n w -> at_world range w.
Proof.
  intros N A. destruct (after_bounds _ _ A) as (S0 & V). destruct A as (F & B & _).
  pose proof (proj1 (fz_inv _ F)) as W. pose proof (kept_bounds _ F) as K.
  pose proof (balance_u64 w 301 W) as UA. pose proof (balance_u64 w 302 W) as UB. pose proof (balance_u64 w 303 W) as UF.
  assert (I0 : In (1000 + 0) (ids 1000)) by (apply in_ids; lia). assert (J0 : In (2000 + 0) (ids 2000)) by (apply in_ids; lia).
  pose proof (held_bound_a w (1000 + 0) F (or_intror I0)) as HA. pose proof (held_bound_b w (2000 + 0) F (or_intror J0)) as HB.
  pose proof (balance_u64 w (1000 + 0) W) as U0. pose proof (balance_u64 w (2000 + 0) W) as U1. unfold is_u64 in *.
  unfold at_world. constructor.
  - unfold low_value, fuzz_price in *. lia.
  - unfold pool_worth, pool_value, all_value, fuzz_price. lia.
  - lia.
  - lia.
  - unfold unit_value. lia.
  - unfold first_value, unit_value, kept in *. lia.
  - exists (1500000050 * supply w 403). unfold unit_value. ring.
Qed.

Lemma call_moves w i w' : fz w -> fuzz_ok i -> 0 < supply w 403 -> fz w' -> exec ex_env [900] w (fuzz_call w i) = Ok w' -> moves w w'.
Proof.
  intros F H S0 F' E.
  destruct i as [a b d n m | a b p n x y | a b p n x y | t d p n m | t d p n m]; cbn [fuzz_ok] in H.
  - eapply swap_moves with (a := a) (b := b); eauto; tauto.
  - eapply deposit_all_moves with (a := a) (b := b) (q := p); eauto; tauto.
  - eapply withdraw_all_moves with (a := a) (b := b) (q := p); eauto; tauto.
  - eapply deposit_single_moves with (t := t) (q := p); eauto; tauto.
  - eapply withdraw_single_moves with (t := t) (q := p); eauto; tauto.
Qed.

Lemma good_more i V A Y F : 0 <= V -> good i V A Y F -> good (i + 1) V A Y F.
Proof.
  intros HV [R P N M]. constructor.
  - eapply Z.le_trans; [| exact R]. apply Z.mul_le_mono_nonneg_r; [apply Z.square_nonneg |]. unfold first_value. lia.
  - eapply Z.le_trans; [| exact P]. apply Z.mul_le_mono_nonneg_l; [lia |]. unfold first_value, slip. lia.
  - unfold slip in *. lia.
  - exact M.
Qed.

Lemma run_good : forall l w n, 0 <= n -> n + Z.of_nat (length l) <= 100000 -> after n w -> at_world (good n) w -> Forall fuzz_ok l ->
  exists w', fuzz_run w l = Some w' /\ after (n + Z.of_nat (length l)) w' /\ at_world (good (n + Z.of_nat (length l))) w'.
Proof.
  induction l as [| i l IH]; intros w n N L A G H.
  - exists w. split; [reflexivity |]. cbn [length]. rewrite Z.add_0_r. split; assumption.
  - cbn [length] in L. rewrite Nat2Z.inj_succ in L. inversion H as [| ? ? Hi Hl]; subst.
    destruct (after_bounds _ _ A) as (S0 & V).
    destruct (fuzz_step_ok w i (proj1 A) Hi S0) as (w1 & E & F1 & K); [unfold fuzz_price in *; lia |].
    assert (A1 : after (n + 1) w1).
    { destruct K as [-> | K]; [apply after_more; assumption | eapply after_share; eauto]. }
    assert (G1 : at_world (good (n + 1)) w1).
    { unfold fuzz_step in E. destruct (exec ex_env [900] w (fuzz_call w i)) as [w2 | e] eqn:X.
      - injection E as ->. pose proof (call_moves _ _ _ (proj1 A) Hi S0 F1 X) as M.
        unfold at_world, moves in *.
        eapply step_good; [| exact (after_range n w ltac:(lia) A) | exact (after_range (n + 1) w1 ltac:(lia) A1) | exact G | exact M]. lia.
      - destruct (tolerated e); [| discriminate]. injection E as ->. unfold at_world in *. apply good_more; [| exact G].
        apply worth_nonneg. exact (proj1 (fz_inv _ F1)). }
    destruct (IH w1 (n + 1)) as (w' & E' & A' & G'); [lia | lia | exact A1 | exact G1 | exact Hl |].
    exists w'. cbn [fuzz_run length]. rewrite E. split; [exact E' |].
    replace (n + Z.of_nat (S (length l))) with (n + 1 + Z.of_nat (length l)) by lia. split; assumption.
Qed.

Lemma start_good : at_world (good 0) fuzz_start.
Proof.
  unfold at_world.
  replace (pool_worth fuzz_start) with first_value by (vm_compute; reflexivity).
  replace (unit_value * supply fuzz_start 403) with first_value by (vm_compute; reflexivity).
  replace (unit_value * balance fuzz_start 303) with 0 by (vm_compute; reflexivity).
  apply good_start.
Qed.

Lemma counted_eq w : fz w -> balance w 304 = 1000000000 -> counted w = supply w 403 - balance w 303.
Proof.
  intros F B. unfold counted.
  replace (balance fuzz_start 304) with 1000000000 by (vm_compute; reflexivity).
  replace (balance fuzz_start 303) with 0 by (vm_compute; reflexivity).
  pose proof (fz_tp _ F) as T. unfold list_p in T. cbn [total] in T.
  rewrite (held_holds _ _ _ _ 403 (fz_p _ F 303 (or_introl eq_refl))), (held_holds _ _ _ _ 403 (fz_p _ F 304 (or_intror (or_introl eq_refl)))), Z.eqb_refl in T.
  lia.
Qed.

Lemma value_kept_when w : fz w -> balance w 304 = 1000000000 -> pool_worth w <= all_value ->
  3000000100 * (supply w 403 - balance w 303) <= pool_worth w -> value_kept w = true.
Proof.
  intros F B HM L. pose proof (counted_eq _ F B) as C. pose proof (kept_bounds _ F) as K.
  pose proof (proj1 (fz_inv _ F)) as W. pose proof (worth_nonneg w W) as V0.
  unfold value_kept.
  replace (token_value fuzz_start (counted fuzz_start)) with (Val 1500000050000000000000) by (vm_compute; reflexivity).
  unfold token_value, fuzz_worth.
  assert (Up : is_u64 fuzz_price) by (unfold is_u64, fuzz_price, u64_max; lia).
  pose proof (cprice_value fuzz_price _ _ Up (balance_u64 w 301 W) (balance_u64 w 302 W)) as E.
  cbn [normalized_value] in E. rewrite E. fold (pool_worth w). cbn [obind]. rewrite C. clear E.
  set (n := supply w 403 - balance w 303) in *.
  assert (N0 : 0 < n) by (unfold n, kept in *; lia).
  assert (S : supply w 403 <= u64_max) by apply (supply_u64 w 403 W).
  pose proof (balance_u64 w 303 W) as UF. unfold is_u64 in UF.
  unfold spl_new. unfold mul_in at 1.
  destruct (Z.leb_spec (n * SPL_ONE) u256_max) as [_ | Bad]; [| exfalso; unfold n, SPL_ONE, u256_max, u64_max in *; lia].
  cbn [obind]. change (10 ^ 12) with SPL_ONE.
  assert (HV : 0 <= pool_worth w / 2 <= all_value).
  { split; [apply Z.div_pos; lia |]. apply Z.le_trans with (pool_worth w); [| exact HM]. apply Z.div_le_upper_bound; lia. }
  rewrite ratio12; [| split; [lia |]; eapply Z.le_trans; [apply HV |]; vm_compute; discriminate | exact N0].
  apply Z.leb_le.
  assert (H2 : 1500000050 * n <= pool_worth w / 2) by (apply Z.div_le_lower_bound; lia).
  apply Z.div_le_lower_bound; [exact N0 |]. unfold SPL_ONE. lia.
Qed.

Lemma run_passes l : Forall fuzz_ok l -> Z.of_nat (length l) <= 100000 -> fuzz_test l = Passed.
Proof.
  intros H L. destruct (run_good l fuzz_start 0 ltac:(lia) ltac:(lia) after_start start_good H) as (w & E & A & G).
  rewrite Z.add_0_l in A, G.
  assert (R := after_range _ _ (conj (Nat2Z.is_nonneg _) L) A).
  assert (V : value_kept w = true).
  { apply value_kept_when; [exact (proj1 A) | exact (proj1 (proj2 A)) | exact (r_high _ _ _ _ R) |].
    pose proof (good_value _ _ _ _ _ (conj (Nat2Z.is_nonneg _) L) R G) as Y. unfold unit_value in Y. lia. }
  destruct (run_rest l H ltac:(lia)) as (w1 & w' & E1 & T & C & T' & _).
  rewrite E in E1. injection E1 as <-.
  unfold fuzz_test. rewrite E, V. cbn [negb]. rewrite T, C, T'. reflexivity.
Qed.

Lemma run_backed l : Forall fuzz_ok l -> Z.of_nat (length l) <= 100000 ->
  exists w, fuzz_run fuzz_start l = Some w /\
    3000000100 * (supply w 403 - balance w 303) <= pool_worth w /\ 3000000100 * supply w 403 <= 4 * pool_worth w.
Proof.
  intros H L. destruct (run_good l fuzz_start 0 ltac:(lia) ltac:(lia) after_start start_good H) as (w & E & A & G).
  rewrite Z.add_0_l in A, G.
  assert (R := after_range _ _ (conj (Nat2Z.is_nonneg _) L) A).
  exists w. split; [exact E |].
  pose proof (good_value _ _ _ _ _ (conj (Nat2Z.is_nonneg _) L) R G) as Y.
  pose proof (ratio_four _ _ _ _ _ (conj (Nat2Z.is_nonneg _) L) R (g_ratio _ _ _ _ _ G)) as Q. unfold unit_value in *. lia.
Qed.
