(** Round trips and split sales of a linear pool on the ledger (C118). *)
From Verif Require Import Ints Tactics DfsPrecise Fees LinearCurve SwapCurve Codec Token Processor Api History
  Spec LedgerSpec TraceSpec LinearProps LinearRound GainFacts SwapFacts EffectFacts HistoryFacts VaultFacts LedgerLinear
  LedgerExamples HistoryExamples CoverWitness BlockFacts.

Lemma linear_valid e w k s c : pool_ok e w k s -> st_curve s = LinearPrice c ->
  linear_wf c /\ linear_validate c = Ok tt.
Proof.
  intros (au & _ & _ & _ & _ & _ & _ & _ & _ & Cf) Hl. destruct Cf as (_ & _ & _ & _ & _ & Cf). rewrite Hl in Cf.
  destruct Cf as (_ & Wf & N1 & N2 & N3 & N4). split; [exact Wf |].
  apply (linear_validate_iff c Wf). auto.
Qed.

Section Trips.
  Variables (e : env) (w w1 w2 : world) (sg1 sg2 : list Z) (acc1 acc2 : list Z) (n1 m1 n2 m2 : Z)
    (s : swap_state) (c : linear_curve).
  Hypotheses (He : env_ok e) (R : reachable e w) (Hp : pool_at w (nth 0 acc1 0) s) (Hl : st_curve s = LinearPrice c)
    (S1 : step e w (Instruction sg1 (Swap acc1 n1 m1)) w1) (S2 : step e w1 (Instruction sg2 (Swap acc2 n2 m2)) w2)
    (Hk : nth 0 acc2 0 = nth 0 acc1 0).

  Let va := st_token_a s.
  Let vb := st_token_b s.

  Lemma both_swaps : nth 4 acc2 0 <> va ->
    let d := if nth 4 acc1 0 =? va then AtoB else BtoA in
    linear_wf c /\ linear_validate c = Ok tt /\ is_u64 n1 /\ is_u64 n2 /\
    (forall v, is_u64 (balance w v) /\ is_u64 (balance w1 v) /\ is_u64 (balance w2 v)) /\
    exists r1 r2,
      curve_swap (LinearPrice c) n1 (match d with AtoB => balance w va | BtoA => balance w vb end)
        (match d with AtoB => balance w vb | BtoA => balance w va end) d linear_fees = Val r1 /\
      curve_swap (LinearPrice c) n2 (balance w1 vb) (balance w1 va) BtoA linear_fees = Val r2 /\
      balance w1 va = side_a d (new_swap_source_amount r1) (new_swap_destination_amount r1) /\
      balance w1 vb = side_b d (new_swap_source_amount r1) (new_swap_destination_amount r1) /\
      balance w2 va = new_swap_destination_amount r2 /\ balance w2 vb = new_swap_source_amount r2.
  Proof.
    intros N2. cbv zeta. pose proof (reachable_inv _ _ He R) as I.
    pose proof (step_inv _ _ _ _ He I S1) as I1. pose proof (step_inv _ _ _ _ He I1 S2) as I2.
    pose proof (step_pool_stays _ _ _ _ _ _ He (proj1 I) S1 Hp) as Hp1.
    destruct (linear_valid _ _ _ _ _ (proj2 I _ _ Hp) Hl) as (Wf & V).
    destruct (linear_config _ _ _ _ _ (proj2 I _ _ Hp) Hl) as (F & _).
    rewrite <- Hk in Hp1.
    inversion S1 as [x1 x2 x3 x4 _ _ E1 | ]; subst. inversion S2 as [y1 y2 y3 y4 _ _ E2 | ]; subst.
    destruct (swap_vaults_at _ _ _ _ _ _ _ _ I E1 Hp) as (r1 & p1 & U1 & C1 & _ & _ & A1 & B1 & _). cbv zeta in *.
    destruct (swap_vaults_at _ _ _ _ _ _ _ _ I1 E2 Hp1) as (r2 & p2 & U2 & C2 & _ & _ & A2 & B2 & _). cbv zeta in *.
    fold va vb in C1, A1, B1, C2, A2, B2. rewrite (proj2 (Z.eqb_neq _ _) N2) in C2, A2, B2. rewrite Hl, F in C1, C2.
    split; [exact Wf |]. split; [exact V |]. split; [exact U1 |]. split; [exact U2 |].
    split; [intros v; split; [apply balance_u64; exact (proj1 I) | split; apply balance_u64; [exact (proj1 I1) | exact (proj1 I2)]] |].
    exists r1, r2. split; [exact C1 |]. split; [exact C2 |]. split; [exact A1 |]. split; [exact B1 |].
    split; [exact A2 | exact B2].
  Qed.

  Lemma trip_bound g : nth 4 acc1 0 = va -> nth 4 acc2 0 <> va -> n2 = balance w vb - balance w1 vb ->
    (forall r1 r2, linear_wf c -> linear_validate c = Ok tt -> feeless linear_fees ->
      is_u64 (balance w va) -> is_u64 n1 -> is_u64 (balance w vb) -> is_u64 (new_swap_source_amount r1) ->
      curve_swap (LinearPrice c) n1 (balance w va) (balance w vb) AtoB linear_fees = Val r1 ->
      curve_swap (LinearPrice c) (destination_amount_swapped r1) (new_swap_destination_amount r1)
        (new_swap_source_amount r1) BtoA linear_fees = Val r2 ->
      destination_amount_swapped r2 <= source_amount_swapped r1 + g) ->
    balance w va <= balance w2 va + g.
  Proof.
    intros H1 H2 En G. destruct (both_swaps H2) as (Wf & V & U1 & U2 & U & r1 & r2 & C1 & C2 & A1 & B1 & A2 & B2). clear B2.
    rewrite H1, Z.eqb_refl in C1, A1, B1. cbn [side_a side_b] in *.
    destruct (U va) as (Ua & Ua1 & Ua2). destruct (U vb) as (Ub & Ub1 & _).
    pose proof (proj1 (feeless_swap _ _ _ _ _ _ _ linear_feeless U1) C1) as (_ & _ & _ & _ & N & M & _).
    rewrite A1, B1 in C2.
    replace n2 with (destination_amount_swapped r1) in C2 by lia.
    assert (Un : is_u64 (destination_amount_swapped r1)) by (replace (destination_amount_swapped r1) with n2 by lia; exact U2).
    rewrite A1 in Ua1. specialize (G r1 r2 Wf V linear_feeless Ua U1 Ub Ua1 C1 C2).
    pose proof (proj1 (feeless_swap _ _ _ _ _ _ _ linear_feeless Un) C2) as (_ & _ & _ & _ & _ & M2 & _).
    lia.
  Qed.

  Lemma ledger_trip : nth 4 acc1 0 = va -> nth 4 acc2 0 <> va -> n2 = balance w vb - balance w1 vb ->
    balance w va <= balance w2 va + 39 /\ (moderate c -> balance w va <= balance w2 va + 2) /\
    (moderate c -> 10 * slope_den c <= slope_num c * ONE -> balance w va <= balance w2 va).
  Proof.
    intros H1 H2 En. split; [| split].
    - apply (trip_bound 39 H1 H2 En). intros r1 r2. exact (gain_any c linear_fees _ _ _ r1 r2).
    - intros Hm. apply (trip_bound 2 H1 H2 En). intros r1 r2 Wf V. exact (gain_moderate c linear_fees _ _ _ r1 r2 Wf V Hm).
    - intros Hm H10. enough (balance w va <= balance w2 va + 0) by lia. apply (trip_bound 0 H1 H2 En).
      intros r1 r2 Wf V Ff Ua U1 Ub Ur C1 C2. rewrite Z.add_0_r.
      exact (round_trip c linear_fees _ _ _ r1 r2 Wf Ff H10 Hm Ua U1 Ub Ur C1 C2).
  Qed.

  (** The same amount sold by one instruction. *)
  Lemma ledger_split sg acc m w' : nth 0 acc 0 = nth 0 acc1 0 -> nth 4 acc1 0 <> va -> nth 4 acc2 0 <> va -> nth 4 acc 0 <> va ->
    step e w (Instruction sg (Swap acc (n1 + n2) m)) w' ->
    balance w' va <= balance w2 va + 2.
  Proof.
    intros Hk' H1 H2 H3 S. destruct (both_swaps H2) as (Wf & V & U1 & U2 & U & r1 & r2 & C1 & C2 & A1 & B1 & A2 & B2). clear B2.
    rewrite (proj2 (Z.eqb_neq _ _) H1) in C1, A1, B1. cbn [side_a side_b] in *.
    pose proof (reachable_inv _ _ He R) as I. inversion S as [x1 x2 x3 x4 _ _ E | ]; subst.
    assert (Hp' : pool_at w (nth 0 acc 0) s) by (rewrite Hk'; exact Hp).
    destruct (swap_vaults_at _ _ _ _ _ _ _ _ I E Hp') as (r & p & Un & C & _ & _ & A & _). cbv zeta in *.
    fold va vb in C, A. rewrite (proj2 (Z.eqb_neq _ _) H3) in C, A. cbn [side_a] in A.
    destruct (linear_config _ _ _ _ _ (proj2 I _ _ Hp) Hl) as (F & _). rewrite Hl, F in C.
    destruct (U va) as (Ua & _). destruct (U vb) as (Ub & Ub1 & _). rewrite A1, B1 in C2. rewrite B1 in Ub1.
    pose proof (split_gain c linear_fees n1 n2 _ _ r1 r2 r Wf V linear_feeless Ua Ub U1 U2 Un Ub1 C1 C2 C) as G.
    pose proof (proj1 (feeless_swap _ _ _ _ _ _ _ linear_feeless U1) C1) as (_ & _ & _ & _ & _ & M1 & _).
    pose proof (proj1 (feeless_swap _ _ _ _ _ _ _ linear_feeless U2) C2) as (_ & _ & _ & _ & _ & M2 & _).
    pose proof (proj1 (feeless_swap _ _ _ _ _ _ _ linear_feeless Un) C) as (_ & _ & _ & _ & _ & M3 & _).
    lia.
  Qed.
End Trips.

(** ** A pool with a slope of about 10^-18, about to sell out *)
Definition lt_w0 : world := of_list
  [ (100, zeroed); (101, tok 201 (auth 100) 0); (102, tok 202 (auth 100) 413746429248); (203, a_mint (auth 100) 0);
    (103, tok 203 900 0); (104, tok 203 900 0); (111, tok 201 901 2000000); (112, tok 202 901 7);
    (201, a_mint 999 0); (202, a_mint 999 0) ].
Definition lt_init : instr :=
  InitLinearPrice [100; auth 100; 101; 102; 203; 103; 104; TOKEN_PROGRAM_ID] 4 3683635795421326728 1 355643751.
Definition lt_w1 : world := run1 [100] lt_w0 lt_init.
Definition lt_w2 : world := run1 [901] lt_w1 (cw_buy 94104).
Definition lt_w3 : world := run1 [901] lt_w2 (cw_buy 1818506).
Definition lt_w4 : world := run1 [901] lt_w3 (cw_sell 9621268).
Definition lt_pool : swap_state :=
  mk_swap_state true 255 TOKEN_PROGRAM_ID 101 102 203 201 202 103 linear_fees
    (LinearPrice (mk_linear 4 3683635795421326728 1 355643751)).

Lemma lt_genesis : genesis_ok lt_w0.
Proof.
  split.
  - intros k. apply (of_list_all _ (fun _ a => account_wf a)); [intros ?; exact (Forall_nil _) |].
    repeat (apply Forall_cons; [| try apply Forall_nil]);
      cbn [snd]; unfold account_wf, zeroed, tok, a_mint; cbn [a_data]; unfold is_u64, u64_max, is_pubkey;
      try (cbn; vm_compute; intuition congruence).
    all: apply Forall_forall; intros x Hx; apply repeat_spec in Hx; subst; unfold is_u8; lia.
  - intros k. apply (of_list_all _ (fun _ a => a_owner a = PROGRAM_ID -> ~ versioned (a_data a))).
    + intros _ H. discriminate H.
    + repeat (apply Forall_cons; [| try apply Forall_nil]); cbn [snd]; intros H; try discriminate H; intros (l & E); discriminate E.
Qed.
Lemma lt_step1 : step ex_env lt_w0 (Instruction [100] lt_init) lt_w1.
Proof. apply ex_run; [apply ex_signers; lia | unfold lt_init; keys_ok | reflexivity | vm_compute; reflexivity]. Qed.
Lemma lt_step2 : step ex_env lt_w1 (Instruction [901] (cw_buy 94104)) lt_w2.
Proof. cw_step. Qed.
Lemma lt_step3 : step ex_env lt_w2 (Instruction [901] (cw_buy 1818506)) lt_w3.
Proof. cw_step. Qed.
Lemma lt_step4 : step ex_env lt_w3 (Instruction [901] (cw_sell 9621268)) lt_w4.
Proof. cw_step. Qed.
Lemma lt_reachable : reachable ex_env lt_w2.
Proof.
  apply (reachable_step _ lt_w1 (Instruction [901] (cw_buy 94104))); [| exact lt_step2].
  apply (reachable_step _ lt_w0 (Instruction [100] lt_init)); [| exact lt_step1].
  exists lt_w0, []. split; [exact lt_genesis | constructor].
Qed.

Lemma lt_gain : exists e w w1 w2 signer acc1 acc2 n1 n2 s c money tokens,
  env_ok e /\ reachable e w /\ pool_at w (nth 0 acc1 0) s /\ st_curve s = LinearPrice c /\ moderate c /\
  nth 0 acc2 0 = nth 0 acc1 0 /\ step e w (Instruction [signer] (Swap acc1 n1 0)) w1 /\ step e w1 (Instruction [signer] (Swap acc2 n2 0)) w2 /\
  nth 4 acc1 0 = st_token_a s /\ nth 4 acc2 0 <> st_token_a s /\
  n2 = balance w (st_token_b s) - balance w1 (st_token_b s) /\
  balance w2 tokens = balance w tokens /\ balance w2 money = balance w money + 2 /\
  balance w2 (st_token_a s) = balance w (st_token_a s) - 2.
Proof.
  exists ex_env, lt_w2, lt_w3, lt_w4, 901, [100; auth 100; 901; 111; 101; 102; 112; 203; 103; TOKEN_PROGRAM_ID],
    [100; auth 100; 901; 112; 102; 101; 111; 203; 103; TOKEN_PROGRAM_ID], 1818506, 9621268, lt_pool,
    (mk_linear 4 3683635795421326728 1 355643751), 111, 112.
  split; [exact ex_env_ok |]. split; [exact lt_reachable |]. split; [split; vm_compute; reflexivity |].
  split; [reflexivity |]. split; [vm_compute; split; discriminate |]. split; [reflexivity |]. split; [exact lt_step3 |]. split; [exact lt_step4 |].
  split; [reflexivity |]. split; [discriminate |]. split; [vm_compute; reflexivity |]. split; [vm_compute; reflexivity |].
  split; vm_compute; reflexivity.
Qed.

(** The last token of a very steep pool to which somebody else has given 36 units. *)
Definition ld_curve : linear_curve := mk_linear 18170693792133491146 37 18201186250863960979 1.
Definition ld_w0 : world := of_list
  [ (100, zeroed); (101, tok 201 (auth 100) 0); (102, tok 202 (auth 100) 1); (203, a_mint (auth 100) 0);
    (103, tok 203 900 0); (104, tok 203 900 0); (111, tok 201 901 18446736166973873004); (112, tok 202 901 0);
    (113, tok 201 902 36); (201, a_mint 999 0); (202, a_mint 999 0) ].
Definition ld_init : instr :=
  InitLinearPrice [100; auth 100; 101; 102; 203; 103; 104; TOKEN_PROGRAM_ID] 18170693792133491146 37 18201186250863960979 1.
Definition ld_w1 : world := run1 [100] ld_w0 ld_init.
Definition ld_w2 : world := give ld_w1 113 101 36.
Definition ld_w3 : world := run1 [901] ld_w2 (cw_buy 18446736166973873004).
Definition ld_w4 : world := run1 [901] ld_w3 (cw_sell 1).
Definition ld_pool : swap_state :=
  mk_swap_state true 255 TOKEN_PROGRAM_ID 101 102 203 201 202 103 linear_fees (LinearPrice ld_curve).

Lemma ld_genesis : genesis_ok ld_w0.
Proof.
  split.
  - intros k. apply (of_list_all _ (fun _ a => account_wf a)); [intros ?; exact (Forall_nil _) |].
    repeat (apply Forall_cons; [| try apply Forall_nil]);
      cbn [snd]; unfold account_wf, zeroed, tok, a_mint; cbn [a_data]; unfold is_u64, u64_max, is_pubkey;
      try (cbn; vm_compute; intuition congruence).
    all: apply Forall_forall; intros x Hx; apply repeat_spec in Hx; subst; unfold is_u8; lia.
  - intros k. apply (of_list_all _ (fun _ a => a_owner a = PROGRAM_ID -> ~ versioned (a_data a))).
    + intros _ H. discriminate H.
    + repeat (apply Forall_cons; [| try apply Forall_nil]); cbn [snd]; intros H; try discriminate H; intros (l & E); discriminate E.
Qed.

Lemma ld_step1 : step ex_env ld_w0 (Instruction [100] ld_init) ld_w1.
Proof. apply ex_run; [apply ex_signers; lia | unfold ld_init; keys_ok | reflexivity | vm_compute; reflexivity]. Qed.
Lemma ld_reachable1 : reachable ex_env ld_w1.
Proof.
  apply (reachable_step _ ld_w0 (Instruction [100] ld_init)); [| exact ld_step1].
  exists ld_w0, []. split; [exact ld_genesis | constructor].
Qed.
Lemma ld_step2 : step ex_env ld_w1 External ld_w2.
Proof.
  pose proof (reachable_inv _ _ ex_env_ok ld_reachable1) as I.
  assert (Hp : pool_at ld_w1 100 ld_pool) by (split; vm_compute; reflexivity).
  destruct (proj2 I _ _ Hp) as (au & Hf & _ & Va & _).
  assert (Pa : is_pda ex_env au) by (exists 100, 255; exact (proj1 (proj1 ex_env_ok _ _ _ Hf))).
  apply step_external. apply (give_external ex_env ld_w1 113 101 36 au _ (mk_token 201 902 36 None 0 false false None) (proj1 I) Va Pa).
  - split; vm_compute; reflexivity.
  - intros P. apply (ex_signers 902 ltac:(lia) 902); [now left | exact P].
  - vm_compute. split; discriminate.
  - vm_compute. discriminate.
Qed.
Lemma ld_step3 : step ex_env ld_w2 (Instruction [901] (cw_buy 18446736166973873004)) ld_w3.
Proof. cw_step. Qed.
Lemma ld_step4 : step ex_env ld_w3 (Instruction [901] (cw_sell 1)) ld_w4.
Proof. cw_step. Qed.

Lemma ledger_dearest : exists e w w1 w2 signer acc1 acc2 n1 n2 s c money tokens,
  env_ok e /\ reachable e w /\ pool_at w (nth 0 acc1 0) s /\ st_curve s = LinearPrice c /\
  nth 0 acc2 0 = nth 0 acc1 0 /\ step e w (Instruction [signer] (Swap acc1 n1 0)) w1 /\ step e w1 (Instruction [signer] (Swap acc2 n2 0)) w2 /\
  nth 4 acc1 0 = st_token_a s /\ nth 4 acc2 0 <> st_token_a s /\
  n2 = balance w (st_token_b s) - balance w1 (st_token_b s) /\
  balance w2 tokens = balance w tokens /\ balance w2 money = balance w money + 36 /\
  balance w2 (st_token_a s) = balance w (st_token_a s) - 36.
Proof.
  exists ex_env, ld_w2, ld_w3, ld_w4, 901, [100; auth 100; 901; 111; 101; 102; 112; 203; 103; TOKEN_PROGRAM_ID],
    [100; auth 100; 901; 112; 102; 101; 111; 203; 103; TOKEN_PROGRAM_ID], 18446736166973873004, 1, ld_pool, ld_curve, 111, 112.
  split; [exact ex_env_ok |].
  split; [exact (reachable_step _ ld_w1 External _ ld_reachable1 ld_step2) |]. split; [split; vm_compute; reflexivity |].
  split; [reflexivity |]. split; [reflexivity |]. split; [exact ld_step3 |]. split; [exact ld_step4 |].
  split; [reflexivity |]. split; [discriminate |]. split; [vm_compute; reflexivity |]. split; [vm_compute; reflexivity |].
  split; vm_compute; reflexivity.
Qed.
