(** Every run of the fuzz test, with the bound on the value of the pool. *)
From Verif Require Import Ints Tactics SplMath Fees LinearCurve ConstantPrice SwapCurve Codec Token Processor Api History
  Spec LedgerSpec TotalSpec TokenFacts EffectFacts HistoryFacts LiquidityFacts VaultFacts LedgerExamples HistoryExamples Fuzz FuzzSpec FuzzState FuzzFacts FuzzRun FuzzEnd.

(** After [n] instructions. *)
Definition after (n : Z) (w : world) : Prop :=
  fz w /\ balance w 304 = 1000000000 /\
  3000000100000000000 * supply w 403 <= pool_worth w * kept w + fuzz_price * n * supply w 403.

Lemma after_start : after 0 fuzz_start.
Proof. split; [exact fz_start |]. split; vm_compute; [reflexivity | discriminate]. Qed.

Lemma after_bounds n w : after n w -> 0 < supply w 403 /\ 3000000100000000000 - fuzz_price * n <= pool_worth w.
Proof.
  intros (F & B & L). pose proof (kept_bounds _ F) as K. pose proof (proj1 (fz_inv _ F)) as W.
  pose proof (balance_u64 w 303 W) as U. unfold is_u64 in U. pose proof (worth_nonneg w W) as V.
  assert (S0 : 0 < supply w 403) by (unfold kept in K; lia). split; [exact S0 |].
  assert (pool_worth w * kept w <= pool_worth w * supply w 403) by (apply Z.mul_le_mono_nonneg_l; lia).
  apply (Z.mul_le_mono_pos_r _ _ (supply w 403)); [exact S0 | lia].
Qed.

Lemma after_share n w w' : 0 <= n -> after n w -> fz w' -> kept_share w w' -> after (n + 1) w'.
Proof.
  intros N A F' (L & B). destruct (after_bounds _ _ A) as (S0 & _). destruct A as (F & B0 & A). split; [exact F' |]. split; [lia |].
  pose proof (supply_u64 w' 403 (proj1 (fz_inv _ F'))) as U. unfold is_u64 in U.
  apply (Z.mul_le_mono_pos_r _ _ (supply w 403)); [exact S0 |].
  assert (3000000100000000000 * supply w 403 * supply w' 403 <= (pool_worth w * kept w + fuzz_price * n * supply w 403) * supply w' 403)
    by (apply Z.mul_le_mono_nonneg_r; lia).
  lia.
Qed.
Lemma after_more n w : 0 <= n -> after n w -> after (n + 1) w.
Proof.
  intros N (F & B & A). split; [exact F |]. split; [exact B |].
  pose proof (supply_u64 w 403 (proj1 (fz_inv _ F))) as U. unfold is_u64, fuzz_price in *. lia.
Qed.

Lemma run_after : forall l w n, 0 <= n -> n + Z.of_nat (length l) <= 100000000000 -> after n w -> Forall fuzz_ok l ->
  exists w', fuzz_run w l = Some w' /\ after (n + Z.of_nat (length l)) w'.
Proof.
  induction l as [| i l IH]; intros w n N L A H.
  - exists w. split; [reflexivity |]. cbn [length]. rewrite Z.add_0_r. exact A.
  - cbn [length] in L. rewrite Nat2Z.inj_succ in L. inversion H as [| ? ? Hi Hl]; subst.
    destruct (after_bounds _ _ A) as (S0 & V).
    destruct (fuzz_step_ok w i (proj1 A) Hi S0) as (w1 & E & F1 & K); [unfold fuzz_price in *; lia |].
    assert (A1 : after (n + 1) w1).
    { destruct K as [-> | K]; [apply after_more; assumption | eapply after_share; eauto]. }
    destruct (IH w1 (n + 1)) as (w' & E' & A'); [lia | lia | exact A1 | exact Hl |].
    exists w'. cbn [fuzz_run length]. rewrite E. split; [exact E' |].
    replace (n + Z.of_nat (S (length l))) with (n + 1 + Z.of_nat (length l)) by lia. exact A'.
Qed.

Lemma run_rest l : Forall fuzz_ok l -> Z.of_nat (length l) <= 100000000000 ->
  exists w w', fuzz_run fuzz_start l = Some w /\ totals_kept w = true /\ cash_in (collect w) = Some w' /\ totals_kept w' = true /\
    supply w' 403 = 0 /\
    3000000100000000000 * supply w 403 <=
      pool_worth w * (balance w 304 + balance w 303) + fuzz_price * Z.of_nat (length l) * supply w 403 /\
    3000000100000000000 - fuzz_price * Z.of_nat (length l) <= pool_worth w.
Proof.
  intros H L. destruct (run_after l fuzz_start 0 ltac:(lia) ltac:(lia) after_start H) as (w & E & A). rewrite Z.add_0_l in A.
  destruct (after_bounds _ _ A) as (S0 & V). pose proof (proj1 A) as F.
  destruct (collect_ok w F) as (F1 & B1 & Su & A1 & A2).
  assert (V1 : pool_worth (collect w) = pool_worth w) by (unfold pool_worth; rewrite A1, A2; reflexivity).
  destruct (cash_in_ok (collect w) F1 B1) as (w' & C & F' & S'); [rewrite Su; exact S0 | rewrite V1; unfold fuzz_price in *; lia |].
  exists w, w'. split; [exact E |]. split; [exact (totals_ok _ F) |]. split; [exact C |]. split; [exact (totals_ok _ F') |].
  split; [exact S' |]. split; [exact (proj2 (proj2 A)) | exact V].
Qed.

Lemma run_verdict l : Forall fuzz_ok l -> Z.of_nat (length l) <= 100000000000 -> fuzz_test l = Passed \/ fuzz_test l = ValueFell.
Proof.
  intros H L. destruct (run_rest l H L) as (w & w' & E & T & C & T' & _). unfold fuzz_test. rewrite E.
  destruct (value_kept w); [left | right; reflexivity]. cbn [negb]. rewrite T, C, T'. reflexivity.
Qed.
