(** Trades around somebody else's trade with a linear pool (C109). *)
From Verif Require Import Ints Tactics DfsPrecise Fees LinearCurve SwapCurve Codec Token Processor Api History
  Spec LedgerSpec TraceSpec DfsFacts LinearFacts SwapFacts LinearExact LinearProps LinearRound LinearHistory LinearBacked
  TokenFacts ProcFacts EffectFacts HistoryFacts VaultFacts LedgerPrice LedgerLinear CoverFacts DriftSpec DriftFacts DriftLedger
  LedgerExamples HistoryExamples CoverWitness.

Lemma cost_num_mono c x y : linear_pos c -> 0 <= x <= y -> cost_num c x <= cost_num c y.
Proof.
  intros Hc H. pose proof (cost2_mono c (x * ONE) (y * ONE) Hc ltac:(pose proof ONE_pos; nia)) as M.
  rewrite !cost2_whole in M. pose proof ONE_pos. nia.
Qed.

Lemma trace_app e w l1 w1 l2 w2 : trace e w l1 w1 -> trace e w1 l2 w2 -> trace e w (l1 ++ l2) w2.
Proof. intros H. induction H; intros H2; cbn [app]; [exact H2 | econstructor; [eassumption | auto]]. Qed.

Lemma drawn_app e k v w l1 w1 l2 : trace e w l1 w1 -> drawn k v w (l1 ++ l2) = drawn k v w l1 + drawn k v w1 l2.
Proof. intros H. induction H; cbn [app drawn]; [lia |]. rewrite IHtrace. lia. Qed.

Lemma trace_pool_stays e w l w' k s : env_ok e -> inv e w -> trace e w l w' -> pool_at w k s -> pool_at w' k s.
Proof.
  intros He I H. induction H as [| w ev w1 l w2 S _ IH]; auto. intros Hp. apply IH.
  - exact (step_inv _ _ _ _ He I S).
  - exact (step_pool_stays _ _ _ _ _ _ He (proj1 I) S Hp).
Qed.

(** What the trade in the middle does to the vaults. *)
Lemma middle_vaults e w signers accounts n m w' k s : inv e w ->
  step e w (Instruction signers (Swap accounts n m)) w' -> pool_at w k s -> nth 0 accounts 0 = k ->
  let d := if nth 4 accounts 0 =? st_token_a s then AtoB else BtoA in
  let paid := side_a d (balance w' (st_token_a s) - balance w (st_token_a s)) (balance w' (st_token_b s) - balance w (st_token_b s)) in
  let got := side_b d (balance w (st_token_a s) - balance w' (st_token_a s)) (balance w (st_token_b s) - balance w' (st_token_b s)) in
  0 <= m /\ 0 <= n /\ paid <= n /\ m <= got.
Proof.
  intros I S Hp <-. inversion S as [w0 sg i w1 _ _ Ex | ]; subst.
  pose proof Ex as Ex'. apply swap_trace in Ex'.
  destruct Ex' as (pool & authority & user & source & ssrc & sdst & dest & mint & fee & tp & rest & s' & ta & tb & pm
      & r & pt & -> & Ha & Hmo & Hu & Hp' & Hpda & V1 & V2 & N1 & N2 & N3 & _ & _ & _ & _ & Hta & Htb & Hpm & H').
  cbn [nth] in *. cbv zeta in *. rewrite (pool_fun _ _ _ _ Hp' Hp) in *. destruct H' as (Hsw & Hy & Hx & _).
  pose proof (swap_vaults_at _ _ _ _ _ _ _ s I Ex Hp) as V. cbv zeta in V. cbn [nth] in V.
  destruct V as (r2 & minted & _ & Sw & _ & _ & B1 & B2 & _).
  rewrite <- (token_balance _ _ _ Hta), <- (token_balance _ _ _ Htb) in Hsw.
  destruct (pool_wf _ _ _ (proj1 I) Hp) as ((_ & _ & _ & _ & _ & _ & _ & _ & Wf & Wc) & _).
  destruct (Z.eqb_spec ssrc (st_token_a s)) as [Q | Q].
  - subst ssrc. assert (Es : sdst = st_token_b s) by (destruct V2; congruence). subst sdst.
    assert (r2 = r) by congruence. subst r2.
    pose proof (curve_swap_bounds _ _ _ _ _ _ _ Wc Wf Ha (balance_u64 _ _ (proj1 I)) (balance_u64 _ _ (proj1 I)) Sw) as Bd.
    cbn [side_a side_b] in *. unfold is_u64 in Hmo, Ha. destruct Bd as (? & ? & ? & ? & ? & ? & _). lia.
  - assert (Es : ssrc = st_token_b s) by (destruct V1; congruence). subst ssrc.
    assert (Es : sdst = st_token_a s) by (destruct V2; congruence). subst sdst.
    assert (r2 = r) by congruence. subst r2.
    pose proof (curve_swap_bounds _ _ _ _ _ _ _ Wc Wf Ha (balance_u64 _ _ (proj1 I)) (balance_u64 _ _ (proj1 I)) Sw) as Bd.
    cbn [side_a side_b] in *. unfold is_u64 in Hmo, Ha. destruct Bd as (? & ? & ? & ? & ? & ? & _). lia.
Qed.

Section Around.
  Variables (e : env) (w : world) (l1 : list (event * world)) (w1 : world) (signers accounts : list Z) (n m : Z) (w2 : world)
    (l2 : list (event * world)) (w' : world) (k : Z) (s : swap_state) (c : linear_curve) (x : Z).
  Let va := st_token_a s.
  Let vb := st_token_b s.
  Hypothesis He : env_ok e.
  Hypothesis R : reachable e w.
  Hypothesis T1 : trace e w l1 w1.
  Hypothesis S : step e w1 (Instruction signers (Swap accounts n m)) w2.
  Hypothesis T2 : trace e w2 l2 w'.
  Hypothesis Hp : pool_at w k s.
  Hypothesis Hl : st_curve s = LinearPrice c.
  Hypothesis Hk : nth 0 accounts 0 = k.
  Hypothesis Hx : 0 <= x.
  Hypothesis Hcov : cost_num c x <= cost_den c * balance w va.
  Let ev := Instruction signers (Swap accounts n m).
  Let l := l1 ++ (ev, w2) :: l2.

  Lemma around_trace : trace e w l w'.
  Proof. apply (trace_app _ _ _ w1); [exact T1 |]. econstructor; [exact S | exact T2]. Qed.

  Lemma around_swaps : swaps_on k ev = true.
  Proof. unfold swaps_on, ev. rewrite Hk. apply Z.eqb_refl. Qed.

  Lemma around_drawn : drawn k vb w l = drawn k vb w l1 + drawn k vb w2 l2 + (balance w1 vb - balance w2 vb).
  Proof. unfold l. rewrite (drawn_app e k vb w l1 w1 _ T1). cbn [drawn]. rewrite around_swaps. lia. Qed.

  Lemma around_count : swaps k l = swaps k l1 + swaps k l2 + 1.
  Proof.
    unfold l, swaps. rewrite filter_app, app_length, Nat2Z.inj_add. cbn [filter fst]. rewrite around_swaps.
    cbn [length]. lia.
  Qed.

  Lemma around_middle : let d := if nth 4 accounts 0 =? va then AtoB else BtoA in
    0 <= m /\ 0 <= n /\
    side_a d (balance w2 va - balance w1 va) (balance w2 vb - balance w1 vb) <= n /\
    m <= side_b d (balance w1 va - balance w2 va) (balance w1 vb - balance w2 vb).
  Proof.
    pose proof (reachable_inv _ _ He R) as I. pose proof (trace_inv _ _ _ _ He T1 I) as I1.
    pose proof (trace_pool_stays _ _ _ _ _ _ He I T1 Hp) as Hp1.
    exact (middle_vaults _ _ _ _ _ _ _ _ _ I1 S Hp1 Hk).
  Qed.

  Lemma around_pos : linear_pos c.
  Proof. exact (proj2 (linear_config _ _ _ _ _ (proj2 (reachable_inv _ _ He R) _ _ Hp) Hl)). Qed.

  Hypothesis Hback : 0 <= drawn k vb w l1 + drawn k vb w2 l2.
  Let taken := balance w va + (balance w2 va - balance w1 va) - balance w' va.

  Lemma around_buyer : nth 4 accounts 0 = va -> decimal c -> Forall (fun p => 0 < balance (snd p) vb) (l1 ++ l2) -> 0 < balance w2 vb ->
    cost_den c * taken <= cost_den c * n - (cost_num c (x + m) - cost_num c x) + (cost_den c * balance w va - cost_num c x).
  Proof.
    intros E4 Hdec F F2. apply Forall_app in F. destruct F as [F1 F3]. pose proof around_middle as M. rewrite E4, Z.eqb_refl in M. cbn [side_a side_b] in M.
    pose proof (cover_trace e w l w' k s c x He R around_trace Hp Hl Hdec) as C. cbv zeta in C.
    specialize (C ltac:(unfold l; apply Forall_app; split; [exact F1 | constructor; [exact F2 | exact F3]]) Hx Hcov).
    fold vb va in C. rewrite around_drawn in C. pose proof around_pos as Hc.
    pose proof (cost_num_mono c (x + m) (Z.max 0 (x + (drawn k vb w l1 + drawn k vb w2 l2 + (balance w1 vb - balance w2 vb)))) Hc ltac:(lia)) as Mo.
    assert (0 <= cost_den c) by (pose proof (cost2_den_pos c Hc); unfold cost2_den, ONE in *; lia).
    unfold taken.
    assert (cost_den c * (balance w2 va - balance w1 va) <= cost_den c * n) by (apply Z.mul_le_mono_nonneg_l; lia). lia.
  Qed.

  Lemma around_seller : nth 4 accounts 0 = vb -> decimal c -> Forall (fun p => 0 < balance (snd p) vb) (l1 ++ l2) -> 0 < balance w2 vb ->
    cost_den c * taken <= (cost_num c x - cost_num c (Z.max 0 (x - n))) - cost_den c * m + (cost_den c * balance w va - cost_num c x).
  Proof.
    intros E4 Hdec F F2. apply Forall_app in F. destruct F as [F1 F3]. pose proof around_middle as M. rewrite E4 in M.
    pose proof (vaults_apart _ _ _ _ (proj2 (reachable_inv _ _ He R) _ _ Hp)) as Nv. fold va vb in Nv.
    destruct (Z.eqb_spec vb va); [congruence |]. cbn [side_a side_b] in M.
    pose proof (cover_trace e w l w' k s c x He R around_trace Hp Hl Hdec) as C. cbv zeta in C.
    specialize (C ltac:(unfold l; apply Forall_app; split; [exact F1 | constructor; [exact F2 | exact F3]]) Hx Hcov).
    fold vb va in C. rewrite around_drawn in C. pose proof around_pos as Hc.
    pose proof (cost_num_mono c (Z.max 0 (x - n)) (Z.max 0 (x + (drawn k vb w l1 + drawn k vb w2 l2 + (balance w1 vb - balance w2 vb)))) Hc ltac:(lia)) as Mo.
    assert (0 <= cost_den c) by (pose proof (cost2_den_pos c Hc); unfold cost2_den, ONE in *; lia).
    unfold taken.
    assert (cost_den c * m <= cost_den c * (balance w1 va - balance w2 va)) by (apply Z.mul_le_mono_nonneg_l; lia). lia.
  Qed.

  Lemma around_buyer_any d : nth 4 accounts 0 = va -> sway c d ->
    cost2_den c * taken <= cost2_den c * (n + balance w va) -
      cost2 c (Z.max 0 ((x + m) * ONE - d * (swaps k l1 + swaps k l2 + 2) - ONE)).
  Proof.
    intros E4 Hd. pose proof around_middle as M. rewrite E4, Z.eqb_refl in M. cbn [side_a side_b] in M.
    pose proof (drift_trace e w l w' k s c d x He R around_trace Hp Hl Hd Hx Hcov) as C. cbv zeta in C.
    fold vb va in C. rewrite around_drawn, around_count in C. pose proof around_pos as Hc.
    pose proof (cost2_den_pos c Hc) as HR. pose proof ONE_pos as HO.
    pose proof (cost2_mono c (Z.max 0 ((x + m) * ONE - d * (swaps k l1 + swaps k l2 + 2) - ONE))
      (Z.max 0 ((x + (drawn k vb w l1 + drawn k vb w2 l2 + (balance w1 vb - balance w2 vb))) * ONE - d * (swaps k l1 + swaps k l2 + 1 + 1) - ONE)) Hc) as Mo.
    assert (HM : (x + m) * ONE <= (x + (drawn k vb w l1 + drawn k vb w2 l2 + (balance w1 vb - balance w2 vb))) * ONE)
      by (apply Z.mul_le_mono_nonneg_r; lia).
    replace (swaps k l1 + swaps k l2 + 1 + 1) with (swaps k l1 + swaps k l2 + 2) in * by lia.
    specialize (Mo ltac:(lia)). unfold taken.
    assert (cost2_den c * (balance w2 va - balance w1 va) <= cost2_den c * n) by (apply Z.mul_le_mono_nonneg_l; lia). lia.
  Qed.

  Lemma around_seller_any d : nth 4 accounts 0 = vb -> sway c d ->
    cost2_den c * taken <= cost2_den c * (balance w va - m) -
      cost2 c (Z.max 0 ((x - n) * ONE - d * (swaps k l1 + swaps k l2 + 2) - ONE)).
  Proof.
    intros E4 Hd. pose proof around_middle as M. rewrite E4 in M.
    pose proof (vaults_apart _ _ _ _ (proj2 (reachable_inv _ _ He R) _ _ Hp)) as Nv. fold va vb in Nv.
    destruct (Z.eqb_spec vb va); [congruence |]. cbn [side_a side_b] in M.
    pose proof (drift_trace e w l w' k s c d x He R around_trace Hp Hl Hd Hx Hcov) as C. cbv zeta in C.
    fold vb va in C. rewrite around_drawn, around_count in C. pose proof around_pos as Hc.
    pose proof (cost2_den_pos c Hc) as HR. pose proof ONE_pos as HO.
    pose proof (cost2_mono c (Z.max 0 ((x - n) * ONE - d * (swaps k l1 + swaps k l2 + 2) - ONE))
      (Z.max 0 ((x + (drawn k vb w l1 + drawn k vb w2 l2 + (balance w1 vb - balance w2 vb))) * ONE - d * (swaps k l1 + swaps k l2 + 1 + 1) - ONE)) Hc) as Mo.
    assert (HM : (x - n) * ONE <= (x + (drawn k vb w l1 + drawn k vb w2 l2 + (balance w1 vb - balance w2 vb))) * ONE)
      by (apply Z.mul_le_mono_nonneg_r; lia).
    replace (swaps k l1 + swaps k l2 + 1 + 1) with (swaps k l1 + swaps k l2 + 2) in * by lia.
    specialize (Mo ltac:(lia)). unfold taken.
    assert (cost2_den c * m <= cost2_den c * (balance w1 va - balance w2 va)) by (apply Z.mul_le_mono_nonneg_l; lia). lia.
  Qed.
End Around.

(** Buyer 902 offers 1000 and would get 18 tokens; trader 901 buys before and sells after. *)
Definition sw_w0 : world := of_list
  [ (100, zeroed); (101, tok 201 (auth 100) 0); (102, tok 202 (auth 100) 5000); (203, a_mint (auth 100) 0);
    (103, tok 203 900 0); (104, tok 203 900 0);
    (111, tok 201 901 10000); (112, tok 202 901 0); (121, tok 201 902 1000); (122, tok 202 902 0);
    (201, a_mint 999 0); (202, a_mint 999 0) ].
Definition sw_init : instr := InitLinearPrice [100; auth 100; 101; 102; 203; 103; 104; TOKEN_PROGRAM_ID] 1 2 50 1.
Definition sw_buy (n m : Z) : instr := Swap [100; auth 100; 902; 121; 101; 102; 122; 203; 103; TOKEN_PROGRAM_ID] n m.
Definition sw_w1 : world := run1 [100] sw_w0 sw_init.
Definition sw_w2 : world := run1 [901] sw_w1 (cw_buy 10000).
Definition sw_w3 : world := run1 [902] sw_w2 (sw_buy 1000 8).
Definition sw_w4 : world := run1 [901] sw_w3 (cw_sell 123).
Definition sw_pool : swap_state :=
  mk_swap_state true 255 TOKEN_PROGRAM_ID 101 102 203 201 202 103 linear_fees (LinearPrice (mk_linear 1 2 50 1)).

Lemma sw_genesis : genesis_ok sw_w0.
Proof.
  split.
  - intros k. apply (of_list_all _ (fun _ a => account_wf a)); [intros ?; exact (Forall_nil _) |].
    repeat (apply Forall_cons; [| try apply Forall_nil]);
      cbn [snd]; unfold account_wf, zeroed, tok, a_mint; cbn [a_data]; unfold is_u64, u64_max, is_pubkey;
      try (cbn; vm_compute; intuition congruence).
    all: apply Forall_forall; intros x Hx; apply repeat_spec in Hx; subst; unfold is_u8; lia.
  - intros k. apply (of_list_all _ (fun _ a => a_owner a = PROGRAM_ID -> ~ versioned (a_data a))).
    + intros _ H. discriminate H.
    + repeat (apply Forall_cons; [| try apply Forall_nil]); cbn [snd]; intros H; try discriminate H; intros (l & E); discriminate E.
Qed.
Lemma sw_step1 : step ex_env sw_w0 (Instruction [100] sw_init) sw_w1.
Proof. apply ex_run; [apply ex_signers; lia | unfold sw_init; keys_ok | reflexivity | vm_compute; reflexivity]. Qed.
Lemma sw_step2 : step ex_env sw_w1 (Instruction [901] (cw_buy 10000)) sw_w2.
Proof. cw_step. Qed.
Lemma sw_step3 : step ex_env sw_w2 (Instruction [902] (sw_buy 1000 8)) sw_w3.
Proof. apply ex_run; [apply ex_signers; lia | unfold sw_buy; keys_ok | reflexivity | vm_compute; reflexivity]. Qed.
Lemma sw_step4 : step ex_env sw_w3 (Instruction [901] (cw_sell 123)) sw_w4.
Proof. cw_step. Qed.
Lemma sw_reachable : reachable ex_env sw_w1.
Proof.
  apply (reachable_step _ sw_w0 (Instruction [100] sw_init)); [| exact sw_step1].
  exists sw_w0, []. split; [exact sw_genesis | constructor].
Qed.

Lemma sw_gain : exists e w w1 w2 w3 k s c trader buyer money tokens before buy after,
  env_ok e /\ reachable e w /\ pool_at w k s /\ st_curve s = LinearPrice c /\ decimal c /\ trader <> buyer /\
  step e w (Instruction [trader] before) w1 /\ step e w1 (Instruction [buyer] buy) w2 /\ step e w2 (Instruction [trader] after) w3 /\
  swaps_on k (Instruction [trader] before) = true /\ swaps_on k (Instruction [buyer] buy) = true /\
  swaps_on k (Instruction [trader] after) = true /\
  balance w3 tokens = balance w tokens /\ balance w money + 475 <= balance w3 money.
Proof.
  exists ex_env, sw_w1, sw_w2, sw_w3, sw_w4, 100, sw_pool, (mk_linear 1 2 50 1), 901, 902, 111, 112,
    (cw_buy 10000), (sw_buy 1000 8), (cw_sell 123).
  split; [exact ex_env_ok |]. split; [exact sw_reachable |]. split; [split; vm_compute; reflexivity |].
  split; [reflexivity |]. split; [exact cw_decimal |]. split; [discriminate |].
  split; [exact sw_step2 |]. split; [exact sw_step3 |]. split; [exact sw_step4 |].
  split; [vm_compute; reflexivity |]. split; [vm_compute; reflexivity |]. split; [vm_compute; reflexivity |].
  split; [vm_compute; reflexivity |]. vm_compute. discriminate.
Qed.
