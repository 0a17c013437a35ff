(** The collateral of a linear pool on the ledger, and collateral that stays behind (C110). *)
From Verif Require Import Ints Tactics DfsPrecise Fees LinearCurve SwapCurve Codec Token Processor Api History
  Spec LedgerSpec TraceSpec RoundSpec DfsFacts LinearFacts SwapFacts LinearExact LinearProps LinearRound LinearHistory LinearBacked
  BackFacts RedeemFacts EffectFacts HistoryFacts LedgerLinear DriftSpec DriftLedger LockSpec LockFacts
  LedgerExamples HistoryExamples CoverWitness SandwichFacts.

(** What reaches a vault other than by swaps. *)
Lemma trace_gifts e w l w' k s c : env_ok e -> inv e w -> trace e w l w' -> pool_at w k s -> st_curve s = LinearPrice c ->
  balance w (st_token_a s) <= balance w' (st_token_a s) + drawn k (st_token_a s) w l /\
  balance w (st_token_b s) <= balance w' (st_token_b s) + drawn k (st_token_b s) w l.
Proof.
  intros He I H Hp Hl. revert I Hp. induction H as [w | w ev w1 l w2 S _ IH]; intros I Hp; cbn [drawn]; [lia |].
  pose proof (step_inv _ _ _ _ He I S) as I1. pose proof (step_pool_stays _ _ _ _ _ _ He (proj1 I) S Hp) as Hp1.
  pose proof (step_linear _ _ _ _ _ _ _ He I S Hp Hl) as L. specialize (IH I1 Hp1).
  destruct (swaps_on k ev); lia.
Qed.

Lemma swaps_nonneg k l : 0 <= swaps k l.
Proof. unfold swaps. lia. Qed.

Lemma trace_full e w l w' k s c X g u : env_ok e -> inv e w -> trace e w l w' -> pool_at w k s -> st_curve s = LinearPrice c ->
  blur c X g -> one_unit c u -> forall x tol, 0 <= tol -> full c tol (total (lstate w s x) * ONE) (lstate w s x) ->
  let st' := lstate w' s (x + drawn k (st_token_b s) w l) in
  let t := (ONE + g + u) * swaps k l + u * (balance w' (st_token_a s) - balance w (st_token_a s) + drawn k (st_token_a s) w l) in
  total st' * ONE + tol + t <= X -> full c (tol + t) (total st' * ONE) st'.
Proof.
  intros He I H Hp Hl HB HU. cbv zeta. revert I Hp. induction H as [w | w ev w1 l w2 S H IH]; intros I Hp x tol Ht F.
  { cbn [drawn]. unfold swaps. cbn [filter length]. change (Z.of_nat 0) with 0.
    rewrite Z.mul_0_r, Z.sub_diag, !Z.add_0_r, Z.mul_0_r, !Z.add_0_r. intros _. exact F. }
  pose proof (step_inv _ _ _ _ He I S) as I1. pose proof (step_pool_stays _ _ _ _ _ _ He (proj1 I) S Hp) as Hp1.
  pose proof (linear_valid _ _ _ _ _ (proj2 I _ _ Hp) Hl) as (Hc & Hv). pose proof (validated_pos c Hc Hv) as Hq.
  pose proof (ahead_nonneg c X g u (Buy 0) Hq (proj1 HB) HB HU) as [G0 _]. pose proof (proj1 HU) as U0.
  pose proof (step_linear _ _ _ _ _ _ _ He I S Hp Hl) as L.
  pose proof (trace_gifts _ _ _ _ _ _ _ He I1 H Hp1 Hl) as (GA & GB). pose proof (swaps_nonneg k l) as SN. pose proof ONE_pos as HO.
  specialize (IH I1 Hp1). cbn [drawn]. rewrite swaps_cons. set (va := st_token_a s) in *. set (vb := st_token_b s) in *.
  assert (S0 : 0 <= (ONE + g + u) * swaps k l) by (apply Z.mul_nonneg_nonneg; lia).
  assert (A0 : 0 <= u * (balance w2 va - balance w1 va + drawn k va w1 l)) by (apply Z.mul_nonneg_nonneg; lia).
  assert (T0 : balance w1 vb * ONE <= (drawn k vb w1 l + balance w2 vb) * ONE) by (apply Z.mul_le_mono_nonneg_r; lia).
  destruct (swaps_on k ev) eqn:Q.
  - destruct L as (o & Ho & L). 
    replace (x + (balance w vb - balance w1 vb + drawn k vb w1 l)) with (x + balance w vb - balance w1 vb + drawn k vb w1 l) by ring.
    set (y := x + balance w vb - balance w1 vb) in *.
    assert (Eo : aheads g u [o] = ONE + g + u)
      by (destruct Ho as (n & [-> | ->]); unfold aheads, ahead; cbn [fold_right]; change (10 ^ 18) with ONE; ring).
    replace ((ONE + g + u) * (1 + swaps k l) + u * (balance w2 va - balance w va + (balance w va - balance w1 va + drawn k va w1 l)))
      with (ONE + g + u + ((ONE + g + u) * swaps k l + u * (balance w2 va - balance w1 va + drawn k va w1 l))) by ring.
    intros HX. rewrite !Z.add_assoc in *.
    pose proof (full_run c linear_fees X g u tol (lstate w s x) [o] Hc linear_feeless Hq HB HU Ht (proj1 HB)
      (lstate_u64 _ _ _ (proj1 I)) F) as K.
    unfold lrun in K. cbn [fold_left] in K. rewrite L, Eo in K. fold vb y in K. rewrite !Z.add_assoc in K.
    specialize (IH y (tol + ONE + g + u)). rewrite !Z.add_assoc in IH. apply IH; [lia | apply K | exact HX].
    unfold total, lstate in HX |- *. cbn [sold left] in HX |- *. fold vb in HX |- *. lia.
  - destruct L as (LA & LB). rewrite !Z.add_0_l in *. intros HX.
    pose proof (full_run c linear_fees X g u tol (lstate w s x) [GiveA (balance w1 va - balance w va); TopUp (balance w1 vb - balance w vb)]
      Hc linear_feeless Hq HB HU Ht (proj1 HB) (lstate_u64 _ _ _ (proj1 I)) F) as K.
    assert (E1 : lrun c linear_fees (lstate w s x) [GiveA (balance w1 va - balance w va); TopUp (balance w1 vb - balance w vb)]
      = lstate w1 s x) by (apply topups_lrun; try assumption; apply balance_u64; apply I1).
    rewrite E1 in K.
    assert (Eo : aheads g u [GiveA (balance w1 va - balance w va); TopUp (balance w1 vb - balance w vb)] = u * (balance w1 va - balance w va))
      by (unfold aheads, ahead; cbn [fold_right]; rewrite Z.max_r by lia; ring).
    rewrite Eo in K.
    assert (A1 : 0 <= u * (balance w1 va - balance w va)) by (apply Z.mul_nonneg_nonneg; lia).
    assert (E2 : (ONE + g + u) * swaps k l + u * (balance w2 va - balance w va + drawn k va w1 l)
      = u * (balance w1 va - balance w va) + ((ONE + g + u) * swaps k l + u * (balance w2 va - balance w1 va + drawn k va w1 l))) by ring.
    rewrite E2 in *. rewrite (Z.add_assoc tol). rewrite (Z.add_assoc (_ + tol)) in HX.
    apply IH; [lia | apply K |].
    + unfold total, lstate in HX |- *. cbn [sold left] in HX |- *. fold vb in HX |- *. lia.
    + unfold total, lstate in HX |- *. cbn [sold left] in HX |- *. fold vb in HX |- *. lia.
Qed.

Lemma full_trace e w l w' k s c X g u z : env_ok e -> reachable e w -> trace e w l w' ->
  pool_at w k s -> st_curve s = LinearPrice c -> blur c X g -> one_unit c u ->
  0 <= z -> cost2_den c * balance w (st_token_a s) <= cost2 c z ->
  let y := drawn k (st_token_b s) w l in
  let t := (ONE + g + u) * swaps k l + u * (balance w' (st_token_a s) - balance w (st_token_a s) + drawn k (st_token_a s) w l) in
  (y + balance w' (st_token_b s)) * ONE + z + t <= X ->
  0 <= z + y * ONE + t /\ cost2_den c * balance w' (st_token_a s) <= cost2 c (z + y * ONE + t).
Proof.
  intros He R H Hp Hl HB HU Hz Hcov. cbv zeta. intros HX. pose proof (reachable_inv _ _ He R) as I.
  pose proof ONE_pos as HO.
  assert (F : full c z (total (lstate w s 0) * ONE) (lstate w s 0)).
  { unfold full, total, lstate. cbn [held left sold].
    replace ((0 + balance w (st_token_b s)) * ONE - balance w (st_token_b s) * ONE + z) with z by ring.
    split; assumption. }
  pose proof (trace_full _ _ _ _ _ _ _ _ _ _ He I H Hp Hl HB HU 0 z Hz F) as K. cbv zeta in K. rewrite Z.add_0_l in K.
  set (y := drawn k (st_token_b s) w l) in *.
  set (t := (ONE + g + u) * swaps k l + _) in *. clearbody t.
  unfold full, total, lstate in K. cbn [held left sold] in K.
  replace ((y + balance w' (st_token_b s)) * ONE - balance w' (st_token_b s) * ONE + (z + t)) with (z + y * ONE + t) in K by ring.
  apply K. lia.
Qed.

(** ** One user buys and sells back, twice *)
Definition lk_w2 : world := run1 [901] sw_w1 (cw_buy 52).
Definition lk_w3 : world := run1 [901] lk_w2 (cw_sell 1).
Definition lk_w4 : world := run1 [901] lk_w3 (cw_buy 206).
Definition lk_w5 : world := run1 [901] lk_w4 (cw_sell 3).

Lemma lk_step2 : step ex_env sw_w1 (Instruction [901] (cw_buy 52)) lk_w2.
Proof. cw_step. Qed.
Lemma lk_step3 : step ex_env lk_w2 (Instruction [901] (cw_sell 1)) lk_w3.
Proof. cw_step. Qed.
Lemma lk_step4 : step ex_env lk_w3 (Instruction [901] (cw_buy 206)) lk_w4.
Proof. cw_step. Qed.
Lemma lk_step5 : step ex_env lk_w4 (Instruction [901] (cw_sell 3)) lk_w5.
Proof. cw_step. Qed.

Definition lk_trace : list (event * world) :=
  [(Instruction [901] (cw_buy 52), lk_w2); (Instruction [901] (cw_sell 1), lk_w3);
   (Instruction [901] (cw_buy 206), lk_w4); (Instruction [901] (cw_sell 3), lk_w5)].

Lemma lk_runs : trace ex_env sw_w1 lk_trace lk_w5.
Proof.
  unfold lk_trace. econstructor; [exact lk_step2 |]. econstructor; [exact lk_step3 |].
  econstructor; [exact lk_step4 |]. econstructor; [exact lk_step5 |]. constructor.
Qed.

Lemma locked : exists e w l w' k s c user money tokens,
  env_ok e /\ reachable e w /\ trace e w l w' /\ pool_at w k s /\ st_curve s = LinearPrice c /\ decimal c /\
  Forall (fun p => swaps_on k (fst p) = true /\ exists i, fst p = Instruction [user] i) l /\
  balance w (st_token_a s) = 0 /\ balance w tokens = 0 /\
  balance w' (st_token_b s) = balance w (st_token_b s) /\ balance w' tokens = 0 /\
  balance w' (st_token_a s) = 153 /\ balance w' money = balance w money - 153.
Proof.
  exists ex_env, sw_w1, lk_trace, lk_w5, 100, sw_pool, (mk_linear 1 2 50 1), 901, 111, 112.
  split; [exact ex_env_ok |]. split; [exact sw_reachable |]. split; [exact lk_runs |].
  split; [split; vm_compute; reflexivity |]. split; [reflexivity |]. split; [exact cw_decimal |].
  split; [unfold lk_trace; repeat (apply Forall_cons; [split; [vm_compute; reflexivity | eexists; reflexivity] |]); apply Forall_nil |].
  split; [vm_compute; reflexivity |]. split; [vm_compute; reflexivity |]. split; [vm_compute; reflexivity |].
  split; [vm_compute; reflexivity |]. split; vm_compute; reflexivity.
Qed.
