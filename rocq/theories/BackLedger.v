(** Rounded backing of linear pools on the ledger (C84). *)
From Verif Require Import Ints Tactics DfsPrecise Fees LinearCurve SwapCurve Codec Token Processor Api History
  Spec LedgerSpec TraceSpec RoundSpec DfsFacts LinearFacts SwapFacts LinearExact LinearProps LinearRound LinearHistory LinearBacked
  BackFacts EffectFacts HistoryFacts LedgerLinear.

Lemma trace_covered e w l w' k s c T x : env_ok e -> inv e w -> trace e w l w' -> pool_at w k s -> st_curve s = LinearPrice c ->
  fine c T -> 4 * T <= ONE -> Forall (fun p => 0 < balance (snd p) (st_token_b s)) l ->
  0 <= total (lstate w s x) -> covered c T T 0 (total (lstate w s x) * ONE) (lstate w s x) ->
  let st' := lstate w' s (x + drawn k (st_token_b s) w l) in 0 <= total st' /\ covered c T T 0 (total st' * ONE) st'.
Proof.
  intros He I H Hp Hl HF H4. cbv zeta. revert x I Hp. induction H as [w | w ev w1 l w2 S _ IH]; intros x I Hp F T0 B.
  - cbn [drawn]. rewrite Z.add_0_r. auto.
  - pose proof (step_inv _ _ _ _ He I S) as I1. pose proof (step_pool_stays _ _ _ _ _ _ He (proj1 I) S Hp) as Hp1.
    pose proof (linear_config _ _ _ _ _ (proj2 I _ _ Hp) Hl) as (_ & Hc).
    apply Forall_cons_iff in F. destruct F as [F0 F]. cbn [snd] in F0.
    pose proof (step_linear _ _ _ _ _ _ _ He I S Hp Hl) as L. cbn [drawn].
    destruct (swaps_on k ev) eqn:Q.
    + destruct L as (o & _ & L).
      pose proof (covered_run c linear_fees T (lstate w s x) [o] Hc linear_feeless HF H4 (lstate_u64 _ _ _ (proj1 I)) T0 B) as Bk.
      cbv zeta in Bk. unfold lrun in Bk. cbn [fold_left] in Bk. rewrite L in Bk.
      rewrite Z.add_assoc, Z.add_sub_assoc. apply (IH _ I1 Hp1 F); apply Bk.
      all: intros pre o' post E; destruct pre as [| ? pre]; [| destruct pre; discriminate E];
        injection E as <- _; cbn; intros (n & _ & _ & Z0); rewrite L in Z0; cbn [lstate left] in Z0; unfold lstate in Z0;
        cbn [left] in Z0; lia.
    + destruct L as (LA & LB).
      pose proof (covered_run c linear_fees T (lstate w s x)
        [GiveA (balance w1 (st_token_a s) - balance w (st_token_a s)); TopUp (balance w1 (st_token_b s) - balance w (st_token_b s))]
        Hc linear_feeless HF H4 (lstate_u64 _ _ _ (proj1 I)) T0 B) as Bk.
      cbv zeta in Bk.
      assert (E1 : lrun c linear_fees (lstate w s x)
        [GiveA (balance w1 (st_token_a s) - balance w (st_token_a s)); TopUp (balance w1 (st_token_b s) - balance w (st_token_b s))]
        = lstate w1 s x) by (apply topups_lrun; try assumption; apply balance_u64; apply I1).
      rewrite E1 in Bk.
      rewrite Z.add_0_l. apply (IH _ I1 Hp1 F); apply Bk.
      all: intros pre o' post E (n & -> & _); destruct pre as [| ? [| ? [| ? pre]]]; discriminate E.
Qed.

Lemma balance_nonneg_inv e w v : inv e w -> 0 <= balance w v.
Proof. intros I. pose proof (balance_u64 w v (proj1 I)) as U. unfold is_u64 in U. lia. Qed.

Lemma trace_inv e w l w' : env_ok e -> inv e w -> trace e w l w' -> inv e w'.
Proof. intros He I H. revert I. induction H as [w | w ev w1 l w2 S _ IH]; intros I; [exact I |]. apply IH. exact (step_inv _ _ _ _ He I S). Qed.

Lemma rounded_trace e w l w' k s c T x : env_ok e -> reachable e w -> trace e w l w' ->
  pool_at w k s -> st_curve s = LinearPrice c -> fine c T -> 4 * T <= ONE ->
  let va := st_token_a s in let vb := st_token_b s in
  Forall (fun p => 0 < balance (snd p) vb) l ->
  0 <= x -> cost_num c x <= cost_den c * balance w va ->
  let y := x + drawn k vb w l in
  cost2 c (Z.max 0 (y * ONE - 2 * T)) <= cost2_den c * balance w' va /\
  (4 * T * price_num_at c (y * ONE) < ONE * ONE -> cost_num c (Z.max 0 y) <= cost_den c * balance w' va).
Proof.
  intros He R H Hp Hl HF H4. cbv zeta. intros F Hx Hcov. pose proof (reachable_inv _ _ He R) as I.
  pose proof (linear_config _ _ _ _ _ (proj2 I _ _ Hp) Hl) as (_ & Hc).
  pose proof (balance_u64 w (st_token_b s) (proj1 I)) as Ub. pose proof (balance_u64 w (st_token_a s) (proj1 I)) as Ua.
  pose proof (trace_covered _ _ _ _ _ _ _ _ x He I H Hp Hl HF H4 F) as Bk. cbv zeta in Bk.
  destruct Bk as (_ & Bk).
  - unfold total, lstate, is_u64 in *. cbn [sold left]. lia.
  - unfold total, lstate. cbn [sold left]. apply start_covered; try assumption; try lia.
  - apply covered_exact in Bk. split; [exact Bk |]. intros HP. apply (whole_exact c T); try assumption; [apply HF |].
    apply balance_nonneg_inv with e; eapply trace_inv; eassumption.
Qed.

Lemma rounded_ledger e w evs w' k s c T x : env_ok e -> reachable e w -> history e w evs w' ->
  pool_at w k s -> st_curve s = LinearPrice c -> fine c T -> costly c T ->
  let va := st_token_a s in let vb := st_token_b s in
  0 <= x -> cost_num c x <= cost_den c * balance w va ->
  let y := x + balance w vb - balance w' vb in
  cost2 c (Z.max 0 (y * ONE - 2 * T)) <= cost2_den c * (balance w' va + 1) /\
  (balance w' vb <> 0 ->
     cost2 c (Z.max 0 (y * ONE - 2 * T)) <= cost2_den c * balance w' va /\
     (4 * T * price_num_at c (y * ONE) < ONE * ONE -> cost_num c (Z.max 0 y) <= cost_den c * balance w' va)).
Proof.
  intros He R H Hp Hl HF Hcy. cbv zeta. intros Hx Hcov. pose proof (reachable_inv _ _ He R) as I.
  pose proof (linear_config _ _ _ _ _ (proj2 I _ _ Hp) Hl) as (_ & Hc).
  pose proof (balance_u64 w (st_token_b s) (proj1 I)) as Ub. pose proof (balance_u64 w (st_token_a s) (proj1 I)) as Ua.
  destruct (history_linear _ _ _ _ _ _ _ He I H Hp Hl) as (ops & F & Run).
  pose proof (covered_run_always c linear_fees T (lstate w s x) ops Hc linear_feeless HF Hcy (lstate_u64 _ _ _ (proj1 I))) as B.
  cbv zeta in B. rewrite Run in B. destruct B as (_ & B).
  - unfold total, lstate, is_u64 in *. cbn [sold left]. lia.
  - exact F.
  - pose proof (proj1 HF) as HT0. unfold total, lstate. cbn [sold left]. destruct (costly_small c T Hc Hcy) as (HT1 & _). pose proof HALF_ONE as HH.
    apply start_covered; try assumption; try lia.
    + unfold short. apply Z.mul_nonneg_nonneg; [pose proof (cden_pos c Hc); lia | vm_compute; discriminate].
  - apply (covered_short _ _ _ Hc) in B. destruct B as [B1 B2]. split; [exact B1 |]. intros N. split; [exact (B2 N) |].
    intros HP. apply (whole_exact c T); try assumption; [apply HF | pose proof (costly_small c T Hc Hcy); lia | | exact (B2 N)].
    apply balance_nonneg_inv with e; eapply history_inv; eassumption.
Qed.
