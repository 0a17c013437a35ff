(** Coverage of a linear pool from any point of its life on (C72). *)
From Verif Require Import Ints Tactics DfsPrecise Fees LinearCurve SwapCurve Codec Token Processor Api History
  Spec LedgerSpec TraceSpec DfsFacts LinearFacts SwapFacts LinearExact LinearProps LinearRound LinearHistory LinearBacked
  EffectFacts HistoryFacts LedgerLinear.

Lemma backed_from c f st ops :
  linear_pos c -> feeless f -> decimal c -> pool_u64 st -> 0 <= sold st ->
  cost_num c (sold st) <= cost_den c * held st ->
  price_num_at c (total st * ONE) <= 10 ^ 17 * (slope_den c * price_den c * ONE) ->
  Forall no_topup ops ->
  let st' := lrun c f st ops in
  cost_num c (Z.max 0 (sold st')) <= cost_den c * (held st' + 1).
Proof.
  intros Hp Hf Hdec U0 Hx Hcov Hprice Hops. cbv zeta.
  pose proof (lrun_total c f st ops Hf Hops) as T. set (D := total st) in *.
  assert (HD0 : 0 <= D) by (unfold D, total; destruct U0 as [_ U]; unfold is_u64 in U; lia).
  destruct (anchor c D Hp Hdec HD0 Hprice) as (M & HM & Hr & Hs & Hgap).
  pose proof ONE_pos as HO. pose proof (cost2_den_pos c Hp) as HR.
  destruct (backed_run_M c f M st ops Hp Hf Hdec U0 ltac:(lia) Hr Hs) as [U B].
  { unfold backed. apply Z.le_trans with (cost2 c (sold st * ONE)).
    - apply cost2_mono; [exact Hp |]. unfold D, total in HM. nia.
    - rewrite cost2_whole. unfold cost2_den. nia. }
  clearbody D. unfold total in T.
  set (st' := lrun c f st ops) in *. clearbody st'.
  destruct U as (_ & Ul). unfold is_u64 in Ul. unfold backed in B.
  assert (X : cost2 c (Z.max 0 (sold st') * ONE) <= cost2_den c * (held st' + 1)).
  { destruct (Z.le_gt_cases (sold st') 0) as [Hneg | Hpos].
    { rewrite Z.max_l, Z.mul_0_l, cost2_0 by lia.
      assert (0 <= cost2 c (Z.max 0 (M - left st' * ONE))).
      { apply Z.le_trans with (cost2 c 0); [rewrite cost2_0; lia |]. apply cost2_mono; [exact Hp | lia]. }
      lia. }
    rewrite Z.max_r by lia. set (k := D * ONE - M) in *.
    destruct (Z.le_gt_cases 0 (M - left st' * ONE)) as [Hin | Hout].
    - rewrite Z.max_r in B by lia.
      pose proof (cost2_convex c (sold st' * ONE) (D * ONE) k Hp ltac:(lia) ltac:(nia)) as C.
      replace (D * ONE - k) with M in C by (subst k; ring).
      replace (sold st' * ONE - k) with (M - left st' * ONE) in C
        by (subst k; replace D with (sold st' + left st') by lia; ring). lia.
    - rewrite Z.max_l, cost2_0 in B by lia.
      pose proof (cost2_convex c k (D * ONE) k Hp ltac:(lia) ltac:(lia)) as C.
      replace (D * ONE - k) with M in C by (subst k; ring).
      rewrite Z.sub_diag, cost2_0 in C.
      pose proof (cost2_mono c (sold st' * ONE) k Hp ltac:(subst k; nia)). lia. }
  rewrite cost2_whole in X. unfold cost2_den in X. nia.
Qed.

Lemma cover_history e w evs w' k s c x : env_ok e -> reachable e w -> history e w evs w' ->
  pool_at w k s -> st_curve s = LinearPrice c -> decimal c ->
  let va := st_token_a s in let vb := st_token_b s in
  price_num_at c ((x + balance w vb) * ONE) <= 10 ^ 17 * (slope_den c * price_den c * ONE) ->
  0 <= x -> cost_num c x <= cost_den c * balance w va ->
  cost_num c (Z.max 0 (x + balance w vb - balance w' vb)) <= cost_den c * (balance w' va + 1).
Proof.
  intros He R H Hp Hl Hdec. cbv zeta. intros Hpr Hx Hcov. pose proof (reachable_inv _ _ He R) as I.
  pose proof (linear_config _ _ _ _ _ (proj2 I _ _ Hp) Hl) as (_ & Hc).
  destruct (history_linear _ _ _ _ _ _ _ He I H Hp Hl) as (ops & F & Run).
  pose proof (backed_from c linear_fees (lstate w s x) ops Hc linear_feeless Hdec (lstate_u64 _ _ _ (proj1 I)) Hx Hcov Hpr F) as B.
  cbv zeta in B. rewrite Run in B. exact B.
Qed.

Lemma cover_trace e w l w' k s c x : env_ok e -> reachable e w -> trace e w l w' ->
  pool_at w k s -> st_curve s = LinearPrice c -> decimal c ->
  let va := st_token_a s in let vb := st_token_b s in
  Forall (fun p => 0 < balance (snd p) vb) l ->
  0 <= x -> cost_num c x <= cost_den c * balance w va ->
  cost_num c (Z.max 0 (x + drawn k vb w l)) <= cost_den c * balance w' va.
Proof.
  intros He R H Hp Hl Hdec. cbv zeta. intros F Hx Hcov. pose proof (reachable_inv _ _ He R) as I.
  pose proof (linear_config _ _ _ _ _ (proj2 I _ _ Hp) Hl) as (_ & Hc).
  pose proof (balance_u64 w (st_token_b s) (proj1 I)) as Ub. unfold is_u64 in Ub. pose proof ONE_pos.
  pose proof (trace_backed _ _ _ _ _ _ _ x He I H Hp Hl Hdec F) as Bk. cbv zeta in Bk.
  destruct Bk as (_ & Bk).
  - unfold total, lstate. cbn [sold left]. lia.
  - unfold backed, total, lstate. cbn [sold left held].
    replace (Z.max 0 ((x + balance w (st_token_b s)) * ONE - balance w (st_token_b s) * ONE)) with (x * ONE) by nia.
    rewrite cost2_whole. unfold cost2_den. nia.
  - apply (backed_exact _ _ Hc) in Bk. exact Bk.
Qed.
