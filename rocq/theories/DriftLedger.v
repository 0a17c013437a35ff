(** The loss per swap on the ledger, and a trader who takes tokens for nothing (C105). *)
From Verif Require Import Ints Tactics DfsPrecise Fees LinearCurve SwapCurve Codec Token Processor Api History
  Spec LedgerSpec TraceSpec RoundSpec DfsFacts LinearFacts SwapFacts LinearExact LinearProps LinearRound LinearHistory LinearBacked
  BackFacts EffectFacts HistoryFacts LedgerLinear BackLedger DriftSpec DriftFacts FreeFacts LedgerExamples HistoryExamples CoverWitness.

Lemma linear_valid e w k s c : pool_ok e w k s -> st_curve s = LinearPrice c -> linear_wf c /\ linear_validate c = Ok tt.
Proof.
  intros (au & _ & _ & _ & _ & _ & _ & _ & _ & Cf) Hl. destruct Cf as (_ & _ & _ & _ & _ & Cf). rewrite Hl in Cf.
  destruct Cf as (F & Wf & Cf). split; [exact Wf |]. apply linear_validate_iff; [exact Wf |]. exact Cf.
Qed.

Lemma swaps_cons k ev w l : swaps k ((ev, w) :: l) = (if swaps_on k ev then 1 else 0) + swaps k l.
Proof. unfold swaps. cbn [filter fst]. destruct (swaps_on k ev); cbn [length]; lia. Qed.

Lemma trace_drift e w l w' k s c d : env_ok e -> inv e w -> trace e w l w' -> pool_at w k s -> st_curve s = LinearPrice c ->
  sway c d -> forall x tol, 0 <= tol -> drift c tol (total (lstate w s x) * ONE) (lstate w s x) ->
  let st' := lstate w' s (x + drawn k (st_token_b s) w l) in drift c (tol + d * swaps k l) (total st' * ONE) st'.
Proof.
  intros He I H Hp Hl HS. cbv zeta. destruct (sway_cost c d HS) as [Hd _].
  assert (Hd0 : 0 <= d) by (unfold HALF in Hd; lia).
  revert I Hp. induction H as [w | w ev w1 l w2 S _ IH]; intros I Hp x tol Ht B.
  - cbn [drawn]. unfold swaps. cbn [filter length]. change (Z.of_nat 0) with 0. rewrite Z.mul_0_r, !Z.add_0_r. exact B.
  - pose proof (step_inv _ _ _ _ He I S) as I1. pose proof (step_pool_stays _ _ _ _ _ _ He (proj1 I) S Hp) as Hp1.
    pose proof (linear_valid _ _ _ _ _ (proj2 I _ _ Hp) Hl) as (Hc & Hv).
    pose proof (RedeemFacts.validated_pos c Hc Hv) as Hq.
    pose proof (step_linear _ _ _ _ _ _ _ He I S Hp Hl) as L. cbn [drawn]. rewrite swaps_cons.
    destruct (swaps_on k ev) eqn:Q.
    + destruct L as (o & _ & L).
      pose proof (drift_run c linear_fees d tol (lstate w s x) [o] Hc Hv linear_feeless HS Ht (lstate_u64 _ _ _ (proj1 I)) B) as Bk.
      cbv zeta in Bk. unfold lrun in Bk. cbn [fold_left] in Bk. rewrite L in Bk.
      rewrite Z.add_assoc, Z.add_sub_assoc.
      replace (tol + d * (1 + swaps k l)) with (tol + d + d * swaps k l) by ring.
      apply (IH I1 Hp1); [lia |]. eapply drift_more; [exact Hq | | exact Bk].
      rewrite roundings_cons. cbn [roundings]. pose proof (loss_01 c linear_fees (lstate w s x) o) as L1. nia.
    + destruct L as (LA & LB).
      pose proof (drift_run c linear_fees d tol (lstate w s x)
        [GiveA (balance w1 (st_token_a s) - balance w (st_token_a s)); TopUp (balance w1 (st_token_b s) - balance w (st_token_b s))]
        Hc Hv linear_feeless HS Ht (lstate_u64 _ _ _ (proj1 I)) B) as Bk.
      cbv zeta in Bk.
      assert (E1 : lrun c linear_fees (lstate w s x)
        [GiveA (balance w1 (st_token_a s) - balance w (st_token_a s)); TopUp (balance w1 (st_token_b s) - balance w (st_token_b s))]
        = lstate w1 s x) by (apply topups_lrun; try assumption; apply balance_u64; apply I1).
      rewrite E1 in Bk. cbn [roundings] in Bk. rewrite !Z.add_0_l, Z.mul_0_r, Z.add_0_r in Bk.
      rewrite !Z.add_0_l. apply (IH I1 Hp1); assumption.
Qed.

(** From any point of the life of a pool on. *)
Lemma drift_trace e w l w' k s c d x : env_ok e -> reachable e w -> trace e w l w' ->
  pool_at w k s -> st_curve s = LinearPrice c -> sway c d ->
  0 <= x -> cost_num c x <= cost_den c * balance w (st_token_a s) ->
  let y := x + drawn k (st_token_b s) w l in
  cost2 c (Z.max 0 (y * ONE - d * (swaps k l + 1) - ONE)) <= cost2_den c * balance w' (st_token_a s).
Proof.
  intros He R H Hp Hl HS Hx Hcov. cbv zeta. pose proof (reachable_inv _ _ He R) as I.
  pose proof (linear_valid _ _ _ _ _ (proj2 I _ _ Hp) Hl) as (Hc & Hv).
  pose proof (RedeemFacts.validated_pos c Hc Hv) as Hq. destruct (sway_cost c d HS) as [Hd _].
  assert (Hd0 : 0 <= d) by (unfold HALF in Hd; lia).
  pose proof (balance_u64 w (st_token_b s) (proj1 I)) as Ub. pose proof (balance_u64 w (st_token_a s) (proj1 I)) as Ua.
  pose proof (cost2_den_pos c Hq) as HR. pose proof ONE_pos as HO. unfold is_u64, u64_max in Ua.
  assert (H2 : cost2 c (x * ONE) <= cost2_den c * balance w (st_token_a s)).
  { rewrite cost2_whole. unfold cost2_den. 
    replace (cost_den c * ONE * ONE * balance w (st_token_a s)) with (ONE * ONE * (cost_den c * balance w (st_token_a s))) by ring.
    apply Z.mul_le_mono_nonneg_l; [nia | exact Hcov]. }
  pose proof (trace_drift _ _ _ _ _ _ _ _ He I H Hp Hl HS x d Hd0) as B. cbv zeta in B.
  replace (d * (swaps k l + 1)) with (d + d * swaps k l) by ring.
  apply drift_covers in B; [exact B |].
  unfold lstate, total, drift, near. cbn [held left sold].
  replace ((x + balance w (st_token_b s)) * ONE - balance w (st_token_b s) * ONE) with (x * ONE) by ring. split.
  - intros a b Ha Hb. unfold u64_max in *.
    apply (up_sway c d a (balance w (st_token_a s)) b (x * ONE) Hc Hv HS); [lia | lia | exact Hb | lia].
  - eapply Z.le_trans; [| exact H2]. apply cost2_mono; [exact Hq |]. nia.
Qed.

(** ** A trader with 8 units of collateral *)
Definition fr_w0 : world := of_list
  [ (100, zeroed); (101, tok 201 (auth 100) 0); (102, tok 202 (auth 100) (10 ^ 12)); (203, a_mint (auth 100) 0);
    (103, tok 203 900 0); (104, tok 203 901 0);
    (111, tok 201 901 8); (112, tok 202 901 0); (201, a_mint 999 0); (202, a_mint 999 0) ].
Definition fr_init : instr :=
  InitLinearPrice [100; auth 100; 101; 102; 203; 103; 104; TOKEN_PROGRAM_ID] 1 (10 ^ 18) 999 (10 ^ 12).
Definition fr_w1 : world := run1 [100] fr_w0 fr_init.
Definition fr_w2 : world := run1 [901] fr_w1 (cw_buy 2).
Definition fr_w3 : world := run1 [901] fr_w2 (cw_buy 6).
Definition fr_w4 : world := run1 [901] fr_w3 (cw_sell 1764379058).
Definition fr_pool : swap_state :=
  mk_swap_state true 255 TOKEN_PROGRAM_ID 101 102 203 201 202 103 linear_fees (LinearPrice thin).

Lemma fr_genesis : genesis_ok fr_w0.
Proof.
  split.
  - intros k. apply (of_list_all _ (fun _ a => account_wf a)); [intros ?; exact (Forall_nil _) |].
    repeat (apply Forall_cons; [| try apply Forall_nil]);
      cbn [snd]; unfold account_wf, zeroed, tok, a_mint; cbn [a_data]; unfold is_u64, u64_max, is_pubkey;
      try (cbn; vm_compute; intuition congruence).
    all: apply Forall_forall; intros x Hx; apply repeat_spec in Hx; subst; unfold is_u8; lia.
  - intros k. apply (of_list_all _ (fun _ a => a_owner a = PROGRAM_ID -> ~ versioned (a_data a))).
    + intros _ H. discriminate H.
    + repeat (apply Forall_cons; [| try apply Forall_nil]); cbn [snd]; intros H; try discriminate H; intros (l & E); discriminate E.
Qed.

Lemma fr_step1 : step ex_env fr_w0 (Instruction [100] fr_init) fr_w1.
Proof. apply ex_run; [apply ex_signers; lia | unfold fr_init; keys_ok | reflexivity | vm_compute; reflexivity]. Qed.
Lemma fr_step2 : step ex_env fr_w1 (Instruction [901] (cw_buy 2)) fr_w2.
Proof. cw_step. Qed.
Lemma fr_step3 : step ex_env fr_w2 (Instruction [901] (cw_buy 6)) fr_w3.
Proof. cw_step. Qed.
Lemma fr_step4 : step ex_env fr_w3 (Instruction [901] (cw_sell 1764379058)) fr_w4.
Proof. cw_step. Qed.
Lemma fr_reachable : reachable ex_env fr_w2.
Proof.
  apply (reachable_step _ fr_w1 (Instruction [901] (cw_buy 2))); [| exact fr_step2].
  apply (reachable_step _ fr_w0 (Instruction [100] fr_init)); [| exact fr_step1].
  exists fr_w0, []. split; [exact fr_genesis | constructor].
Qed.

Lemma free_loop : exists e w l w' k s c user money tokens,
  env_ok e /\ reachable e w /\ trace e w l w' /\ pool_at w k s /\ st_curve s = LinearPrice c /\
  Forall (fun p => swaps_on k (fst p) = true /\ exists i, fst p = Instruction [user] i) l /\
  balance w' (st_token_a s) = balance w (st_token_a s) /\ balance w' money = balance w money /\
  balance w' (st_token_b s) = balance w (st_token_b s) - 235620942 /\
  balance w' tokens = balance w tokens + 235620942.
Proof.
  exists ex_env, fr_w2, [(Instruction [901] (cw_buy 6), fr_w3); (Instruction [901] (cw_sell 1764379058), fr_w4)], fr_w4, 100,
    fr_pool, thin, 901, 111, 112.
  split; [exact ex_env_ok |]. split; [exact fr_reachable |].
  split; [econstructor; [exact fr_step3 |]; econstructor; [exact fr_step4 | constructor] |].
  split; [split; vm_compute; reflexivity |]. split; [reflexivity |].
  split; [repeat (apply Forall_cons; [split; [vm_compute; reflexivity | eexists; reflexivity] |]); apply Forall_nil |].
  split; [vm_compute; reflexivity |]. split; [vm_compute; reflexivity |]. split; vm_compute; reflexivity.
Qed.
