(** The token program refuses an instruction of the fuzz test only for lack of funds. *)
From Verif Require Import Ints Tactics SplMath Fees LinearCurve ConstantPrice SwapCurve Codec Token Processor Api History
  Spec LedgerSpec CallSpec WireSpec TotalSpec LiveSpec RequestSpec TraceSpec CurveFacts LinearFacts SwapFacts CurveProps CodecFacts TokenFacts ProcFacts
  AmountFacts EffectFacts TradeFacts CreateFacts PermFacts HistoryFacts LiquidityFacts VaultFacts LedgerPrice TotalFacts
  LinearProps RequestFacts RedeemAll LedgerExamples HistoryExamples Fuzz FuzzSpec FuzzState FuzzFacts FuzzRun FuzzEnd FuzzMain FuzzValue FuzzMoves FuzzWorth.

Lemma leave_over have n : 0 <= have -> 0 <= n -> have < leave_none have n -> have < n.
Proof. intros H N. unfold leave_none, sat_sub. destruct (_ =? 1) eqn:E; [lia | auto]. Qed.

Lemma fuzz_fees_wf : fees_wf fuzz_fees.
Proof. unfold fees_wf, is_u64, u64_max. cbn. lia. Qed.

(** Nothing overflows in a swap that can be paid for. *)
Lemma swap_fits w d n r x y : fz w -> 0 < supply w 403 -> at_world range w -> unit_value * supply w 403 <= 4 * pool_worth w -> is_u64 n ->
  curve_swap (ConstantPrice fuzz_price) n (match d with AtoB => balance w 301 | BtoA => balance w 302 end)
    (match d with AtoB => balance w 302 | BtoA => balance w 301 end) d fuzz_fees = Val r ->
  0 <= x -> 0 <= y -> source_amount_swapped r <= x ->
  (match d with AtoB => balance w 301 | BtoA => balance w 302 end) + x <= 1068000000000 ->
  (match d with AtoB => balance w 302 | BtoA => balance w 301 end) + y <= 1068000000000 ->
  (u64_max < match d with AtoB => balance w 301 | BtoA => balance w 302 end + source_amount_swapped r \/
   u64_max < y + destination_amount_swapped r \/
   exists minted, 0 < minted /\
     curve_withdraw_single (ConstantPrice fuzz_price) (owner_fee r)
       (side_a d (new_swap_source_amount r) (new_swap_destination_amount r))
       (side_b d (new_swap_source_amount r) (new_swap_destination_amount r))
       (supply w 403) d fuzz_fees = Val minted /\
     (u64_max < balance w 303 + minted \/ u64_max < supply w 403 + minted)) -> False.
Proof.
  intros F S0 R4 Q4 Un Sw X0 Y0 Sx BX BY Bad. pose proof (proj1 (fz_inv _ F)) as W.
  pose proof (balance_u64 w 301 W) as UA. pose proof (balance_u64 w 302 W) as UB. pose proof (balance_u64 w 303 W) as UF.
  pose proof (kept_bounds _ F) as K. pose proof (balance_u64 w 304 W) as U4. unfold is_u64 in *.
  assert (Up : is_u64 fuzz_price) by (unfold is_u64, fuzz_price, u64_max; lia).
  destruct (cprice_curve_swap _ _ _ _ _ _ _ Up ltac:(reflexivity) (proj1 Un) Sw) as (total & Et & T1 & T2 & Tn & Ev & Es & PV).
  assert (PW : pool_value fuzz_price (side_a d (match d with AtoB => balance w 301 | BtoA => balance w 302 end)
      (match d with AtoB => balance w 302 | BtoA => balance w 301 end))
      (side_b d (match d with AtoB => balance w 301 | BtoA => balance w 302 end)
      (match d with AtoB => balance w 302 | BtoA => balance w 301 end)) = pool_worth w) by (destruct d; reflexivity).
  rewrite PW in PV.
  pose proof (r_low _ _ _ _ R4) as RL. pose proof (r_high _ _ _ _ R4) as RH. unfold low_value, all_value, unit_value in *.
  assert (NB : 0 <= new_swap_source_amount r /\ 0 <= new_swap_destination_amount r /\
    new_swap_destination_amount r = (match d with AtoB => balance w 302 | BtoA => balance w 301 end) - destination_amount_swapped r /\
    0 <= trade_fee r /\ 0 <= owner_fee r /\ owner_fee r <= source_amount_swapped r).
  { assert (CW : curve_wf (ConstantPrice fuzz_price)) by exact Up.
    pose proof (curve_swap_bounds _ _ _ _ _ _ _ CW fuzz_fees_wf Un
      (match d return is_u64 (match d with AtoB => balance w 301 | BtoA => balance w 302 end) with AtoB => UA | BtoA => UB end)
      (match d return is_u64 (match d with AtoB => balance w 302 | BtoA => balance w 301 end) with AtoB => UB | BtoA => UA end) Sw) as CB.
    destruct d; lia. }
  destruct NB as (NB1 & NB2 & NB3 & NB4 & NB5 & NB6).
  destruct Bad as [Bad | [Bad | (minted & M0 & Mi & Bad)]].
  - unfold u64_max in *. lia.
  - unfold u64_max in *. lia.
  - assert (O1 : 0 < owner_fee r).
    { destruct (Z.eq_dec (owner_fee r) 0) as [E | ]; [| lia]. rewrite E in Mi. cbn in Mi. injection Mi as <-. lia. }
    apply curve_withdraw_single_inner in Mi; [| exact fuzz_fees_wf | exact O1]. destruct Mi as (fee & _ & Hf & Mi).
    cbn [calc_withdraw_single] in Mi.
    apply cprice_withdraw_single_bound in Mi; [| unfold fuzz_price; lia | lia | destruct d; cbn [side_a]; lia | destruct d; cbn [side_b]; lia | lia].
    rewrite PV in Mi. destruct Mi as (_ & [(E & _) | (_ & Mi & _)]); [lia |].
    assert (V1 : 0 <= value_of fuzz_price total d) by (unfold value_of, fuzz_price; destruct d; lia).
    assert (V2 : 0 <= value_of fuzz_price (owner_fee r - fee) d <= 10680000000000000000) by (unfold value_of, fuzz_price; destruct d; lia).
    assert (M1 : (minted - 1) * pool_worth w <= supply w 403 * 10680000000000000000).
    { apply Z.le_trans with ((minted - 1) * (pool_worth w + value_of fuzz_price total d)).
      - apply Z.mul_le_mono_nonneg_l; lia.
      - apply Z.le_trans with (supply w 403 * value_of fuzz_price (owner_fee r - fee) d); [lia |]. apply Z.mul_le_mono_nonneg_l; lia. }
    assert (M2 : (minted - 1) * 2999000000000000000 <= (minted - 1) * pool_worth w) by (apply Z.mul_le_mono_nonneg_l; lia).
    unfold kept, u64_max in *. lia.
Qed.

Lemma room_users w : fz w -> (forall id, is_id id -> balance w 301 + balance w (acc_a id) <= 356000000000) /\
  (forall id, is_id id -> balance w 302 + balance w (acc_b id) <= 1068000000000).
Proof.
  intros F. split; intros id I.
  - apply (held_bound_a w _ F). right. apply in_ids. exact I.
  - apply (held_bound_b w _ F). right. apply in_ids. exact I.
Qed.

Lemma call_funds w i : fz w -> fuzz_ok i -> 0 < supply w 403 -> at_world range w -> unit_value * supply w 403 <= 4 * pool_worth w ->
  exec ex_env [900] w (fuzz_call w i) = Err EToken -> lacks_funds w i.
Proof.
  intros F H S0 R4 Q4 E. pose proof (proj1 (fz_inv _ F)) as W.
  assert (In900 : In 900 [900]) by now left.
  pose proof (single_900 _ F) as SU. pose proof (single_auth _ F) as SA.
  pose proof (holds_thawed _ _ _ _ (vault_a _ F)) as TA. pose proof (holds_thawed _ _ _ _ (vault_b _ F)) as TB.
  assert (N1 : 403 <> 201) by discriminate. assert (N2 : 403 <> 202) by discriminate.
  destruct i as [a b d n m | a b p n x y | a b p n x y | t d p n m | t d p n m]; cbn [fuzz_ok] in H; cbn [fuzz_call] in E.
  - destruct H as (Ia & Ib & Un & Um).
    assert (FP : feeless (st_fees fz_pool) \/ 403 <> 201 /\ 403 <> 202 /\ payee w 303 403 /\ (forall t, token_at w 303 t -> t_native t = false)).
    { right. repeat split; try discriminate; [eapply holds_payee | eapply holds_plain]; apply fee_p; exact F. }
    destruct d.
    + pose proof (swap_request ex_env [900] w 300 (auth 300) fz_pool 900 (acc_a a) 301 302 (acc_b b) [304] n m (balance w (acc_a a))
        ex_env_ok (fz_reach _ F) signers_900 (fz_state _ F) pda_300 Un Um In900 SU SA (or_introl (conj eq_refl eq_refl)) TA TB
        (holds_wallet _ _ _ _ (user_a _ _ F Ia)) (holds_payee _ _ _ _ (user_b _ _ F Ib)) ltac:(unfold acc_b, is_id in *; lia) FP) as R.
      cbv zeta in R. cbn [st_pool_mint st_pool_fee_account fz_pool] in R. rewrite E in R.
      destruct R as (r & Q & _ & R). cbn [lacks_funds]. exists r. split; [exact Q |].
      destruct (Z.lt_ge_cases (balance w (acc_a a)) (source_amount_swapped r)) as [L | L]; [exact L |]. exfalso.
      destruct R as [R | R]; [lia |].
      exact (swap_fits w AtoB n r (balance w (acc_a a)) (balance w (acc_b b)) F S0 R4 Q4 Un Q (proj1 (balance_u64 w _ W)) (proj1 (balance_u64 w _ W)) L
        ltac:(pose proof (proj1 (room_users w F) a Ia); lia) (proj2 (room_users w F) b Ib) R).
    + pose proof (swap_request ex_env [900] w 300 (auth 300) fz_pool 900 (acc_b b) 302 301 (acc_a a) [304] n m (balance w (acc_b b))
        ex_env_ok (fz_reach _ F) signers_900 (fz_state _ F) pda_300 Un Um In900 SU SA (or_intror (conj eq_refl eq_refl)) TB TA
        (holds_wallet _ _ _ _ (user_b _ _ F Ib)) (holds_payee _ _ _ _ (user_a _ _ F Ia)) ltac:(unfold acc_a, is_id in *; lia) FP) as R.
      cbv zeta in R. cbn [st_pool_mint st_pool_fee_account fz_pool] in R. rewrite E in R.
      destruct R as (r & Q & _ & R). cbn [lacks_funds]. exists r. split; [exact Q |].
      destruct (Z.lt_ge_cases (balance w (acc_b b)) (source_amount_swapped r)) as [L | L]; [exact L |]. exfalso.
      destruct R as [R | R]; [lia |].
      exact (swap_fits w BtoA n r (balance w (acc_b b)) (balance w (acc_a a)) F S0 R4 Q4 Un Q (proj1 (balance_u64 w _ W)) (proj1 (balance_u64 w _ W)) L
        (proj2 (room_users w F) b Ib) ltac:(pose proof (proj1 (room_users w F) a Ia); lia) R).
  - destruct H as (Ia & Ib & Ip & Un & Ux & Uy).
    pose proof (deposit_all_request ex_env [900] w 300 (auth 300) fz_pool 900 (acc_a a) (acc_b b) (acc_p p) [] (avoid_one n) x y (balance w (acc_a a)) (balance w (acc_b b))
        ex_env_ok (fz_reach _ F) signers_900 (fz_state _ F) pda_300 (avoid_u64 _ Un) Ux Uy In900 SU SA TA TB
        (holds_wallet _ _ _ _ (user_a _ _ F Ia)) (holds_wallet _ _ _ _ (user_b _ _ F Ib)) (holds_payee _ _ _ _ (user_p _ _ F Ip))
        (holds_plain _ _ _ _ (user_p _ _ F Ip)) N1 N2) as R.
    cbv zeta in R. cbn [st_pool_mint st_pool_fee_account st_token_a st_token_b fz_pool] in R. rewrite E in R.
    pose proof (proj1 (room_users w F) a Ia) as RA. pose proof (proj2 (room_users w F) b Ib) as RB.
    pose proof (avoid_u64 _ Un) as Ua. destruct (Z.eqb_spec (supply w 403) 0) as [Z0 | _]; [lia |].
    destruct R as (xa & xb & Q & _ & _ & R). cbn [lacks_funds]. exists xa, xb. split; [exact Q |].
    pose proof (balance_u64 w 301 W) as UA. pose proof (balance_u64 w 302 W) as UB. pose proof (balance_u64 w (acc_a a) W) as Uaa.
    pose proof (balance_u64 w (acc_b b) W) as Ubb. pose proof (kept_le w p F Ip) as KP.
    pose proof (balance_u64 w 303 W) as U3. pose proof (balance_u64 w 304 W) as U4. unfold is_u64, kept in *.
    destruct (Z.lt_ge_cases (balance w (acc_a a)) xa) as [L1 | L1]; [left; exact L1 |].
    destruct (Z.lt_ge_cases (balance w (acc_b b)) xb) as [L2 | L2]; [right; exact L2 |]. exfalso.
    pose proof (r_low _ _ _ _ R4) as RL. pose proof (r_high _ _ _ _ R4) as RH. unfold low_value, all_value, unit_value in *.
    assert (N : avoid_one n <= 1000000000000).
    { assert (D : (pool_worth w - 1) * avoid_one n <= 2 * 356000000000 * supply w 403).
      { change (cprice_pool_tokens_to_trading_tokens fuzz_price (avoid_one n) (supply w 403) (balance w 301) (balance w 302) Ceiling = Val (xa, xb)) in Q.
        unfold cprice_pool_tokens_to_trading_tokens in Q. inv.
        match goal with H : cprice_normalized_value _ _ _ = Val _ |- _ =>
          apply cprice_value_half in H; [| unfold fuzz_price; lia | lia | lia] end. subst.
        match goal with H : spl_to_imprecise _ = Val _ |- _ =>
          apply spl_whole_to_imprecise in H; [| apply Z.div_pos; fold (pool_worth w); lia] end. subst.
        fold (pool_worth w) in *. set (V := pool_worth w) in *.
        pose proof (Z.div_mod V 2 ltac:(lia)) as DV. pose proof (Z.mod_pos_bound V 2 ltac:(lia)) as MV. set (h := V / 2) in *.
        assert (Ha : 0 <= avoid_one n * h) by (apply Z.mul_nonneg_nonneg; lia).
        assert (Hb : avoid_one n * h <= 356000000000 * supply w 403).
        { match goal with H : checked_ceil_div _ (avoid_one n * h) (supply w 403) = Val _ |- _ =>
            apply ceil_div_spec in H; [| exact Ha | lia]; destruct H as (_ & [(C & _) | (_ & _ & (_ & C) & _)]) end; [nia |].
          eapply Z.le_trans; [exact C |]. apply Z.mul_le_mono_nonneg_r; lia. }
        assert (avoid_one n * (V - 1) <= avoid_one n * (2 * h)) by (apply Z.mul_le_mono_nonneg_l; lia). lia. }
      assert (2998000000000000000 * avoid_one n <= (pool_worth w - 1) * avoid_one n) by (apply Z.mul_le_mono_nonneg_r; lia). lia. }
    unfold u64_max in *. lia.
  - destruct H as (Ia & Ib & Ip & Un & Ux & Uy).
    pose proof (withdraw_all_request ex_env [900] w 300 (auth 300) fz_pool 900 (acc_p p) (acc_a a) (acc_b b) [] (leave_none (balance w (acc_p p)) n) x y (balance w (acc_p p))
        ex_env_ok (fz_reach _ F) signers_900 (fz_state _ F) pda_300 (leave_u64 _ _ _ W Un) Ux Uy In900 SU SA TA TB
        (holds_wallet _ _ _ _ (user_p _ _ F Ip)) (holds_plain _ _ _ _ (user_p _ _ F Ip))
        (holds_payee _ _ _ _ (user_a _ _ F Ia)) (holds_payee _ _ _ _ (user_b _ _ F Ib))
        ltac:(change (acc_a a <> 301); unfold acc_a, is_id in *; lia) ltac:(change (acc_b b <> 302); unfold acc_b, is_id in *; lia) (holds_payee _ _ _ _ (fee_p _ F)) N1 N2) as R.
    cbv zeta in R. cbn [st_pool_mint st_pool_fee_account st_token_a st_token_b fz_pool] in R. rewrite E in R.
    pose proof (proj1 (room_users w F) a Ia) as RA. pose proof (proj2 (room_users w F) b Ib) as RB.
    pose proof (leave_u64 _ _ _ W Un : is_u64 (leave_none (balance w (acc_p p)) n)) as Ul.
    destruct R as (xa & xb & Q & _ & _ & R). cbn [lacks_funds].
    pose proof (balance_u64 w 301 W) as UA. pose proof (balance_u64 w 302 W) as UB. pose proof (balance_u64 w (acc_a a) W) as Uaa.
    pose proof (balance_u64 w (acc_b b) W) as Ubb. pose proof (kept_le w p F Ip) as KP. pose proof (balance_u64 w (acc_p p) W) as Up.
    pose proof (balance_u64 w 303 W) as U3. pose proof (balance_u64 w 304 W) as U4. pose proof (supply_u64 w 403 W) as US.
    unfold is_u64, kept in *.
    apply leave_over; [lia | lia |].
    destruct (Z.lt_ge_cases (balance w (acc_p p)) (leave_none (balance w (acc_p p)) n)) as [L | L]; [exact L |]. exfalso.
    set (k := leave_none (balance w (acc_p p)) n) in *.
    assert (C : 0 <= exit_charge fz_pool (acc_p p) k <= k).
    { unfold exit_charge. destruct (_ || _ || _) eqn:B0; [lia |]. apply Bool.orb_false_iff in B0. destruct B0 as (_ & B0).
      apply Z.eqb_neq in B0. cbn [st_fees fz_pool fuzz_fees owner_withdraw_fee_num owner_withdraw_fee_den].
      assert (k * 30 / 10000 <= k) by (apply Z.div_le_upper_bound; lia).
      assert (0 <= k * 30 / 10000) by (apply Z.div_pos; lia). lia. }
    unfold u64_max in *. lia.
  - destruct H as (It & Ip & Un & Um).
    pose proof (deposit_single_request ex_env [900] w 300 (auth 300) fz_pool d 900 (acc_on d t) (acc_p p) [] n (at_least_two m) (balance w (acc_on d t))
        ex_env_ok (fz_reach _ F) signers_900 (fz_state _ F) pda_300 Un (least_u64 _ Um) In900 SU SA ltac:(destruct d; assumption)
        (holds_wallet _ _ _ _ (user_on _ d _ F It)) ltac:(destruct d; assumption) (holds_payee _ _ _ _ (user_p _ _ F Ip))
        (holds_plain _ _ _ _ (user_p _ _ F Ip))) as R.
    cbv zeta in R. cbn [st_pool_mint st_pool_fee_account st_token_a st_token_b fz_pool] in R. rewrite E in R.
    destruct (Z.eqb_spec (supply w 403) 0) as [Z0 | _]; [lia |].
    destruct R as (q & Q & _ & R). cbn [lacks_funds].
    destruct (Z.lt_ge_cases (balance w (acc_on d t)) n) as [L | L]; [exact L |]. exfalso. destruct R as [R | R]; [lia |].
    pose proof (proj1 (room_users w F) t It) as RA. pose proof (proj2 (room_users w F) t It) as RB.
    pose proof (balance_u64 w 301 W) as UA. pose proof (balance_u64 w 302 W) as UB.
    pose proof (balance_u64 w 303 W) as U3. pose proof (balance_u64 w 304 W) as U4. pose proof (kept_le w p F Ip) as KP.
    assert (Up : is_u64 fuzz_price) by (unfold is_u64, fuzz_price, u64_max; lia).
    pose proof (r_low _ _ _ _ R4) as RL. pose proof (r_high _ _ _ _ R4) as RH.
    unfold is_u64, kept, low_value, all_value, unit_value in *.
    apply cprice_single_deposit_fair in Q; [| exact Up | exact fuzz_fees_wf | lia | lia | lia | lia]. fold (pool_worth w) in Q.
    assert (V2 : value_of fuzz_price n d <= 10680000000000000000) by (unfold value_of, fuzz_price, acc_on in *; destruct d; lia).
    assert (supply w 403 * value_of fuzz_price n d <= supply w 403 * 10680000000000000000) by (apply Z.mul_le_mono_nonneg_l; lia).
    assert (q * 2999000000000000000 <= q * pool_worth w) by (apply Z.mul_le_mono_nonneg_l; lia).
    assert (VA : balance w (side_vault d fz_pool) + n <= 1068000000000).
    { unfold acc_on in L. destruct d; cbn [side_vault fz_pool st_token_a st_token_b]; lia. }
    unfold u64_max in *. lia.
  - destruct H as (It & Ip & Un & Um).
    pose proof (withdraw_single_request ex_env [900] w 300 (auth 300) fz_pool d 900 (acc_p p) (acc_on d t) [] n (leave_none (balance w (acc_p p)) m) (balance w (acc_p p))
        ex_env_ok (fz_reach _ F) signers_900 (fz_state _ F) pda_300 Un (leave_u64 _ _ _ W Um) In900 SU SA ltac:(destruct d; assumption)
        (holds_payee _ _ _ _ (user_on _ d _ F It)) ltac:(destruct d; [change (acc_a t <> 301) | change (acc_b t <> 302)]; unfold acc_a, acc_b, is_id in *; lia)
        (holds_wallet _ _ _ _ (user_p _ _ F Ip)) (holds_plain _ _ _ _ (user_p _ _ F Ip)) ltac:(destruct d; assumption)
        (holds_payee _ _ _ _ (fee_p _ F))) as R.
    cbv zeta in R. cbn [st_pool_mint st_pool_fee_account st_token_a st_token_b fz_pool] in R. rewrite E in R.
    destruct R as (q & Q & _ & R). cbn [lacks_funds].
    destruct (Z.lt_ge_cases (balance w (match d with AtoB => 301 | BtoA => 302 end)) n) as [L | L]; [left; exact L |]. right.
    exists q. split; [exact Q |].
    pose proof (proj1 (room_users w F) t It) as RA. pose proof (proj2 (room_users w F) t It) as RB.
    pose proof (balance_u64 w 301 W) as UA. pose proof (balance_u64 w 302 W) as UB. pose proof (balance_u64 w (acc_p p) W) as Upp.
    pose proof (balance_u64 w 303 W) as U3. pose proof (balance_u64 w 304 W) as U4. pose proof (kept_le w p F Ip) as KP.
    pose proof (supply_u64 w 403 W) as US. unfold is_u64, kept in *.
    assert (C : exit_charge fz_pool (acc_p p) q <= Z.max 1 (q * 30 / 10000) /\ (q = 0 -> exit_charge fz_pool (acc_p p) q = 0)).
    { split.
      - unfold exit_charge. destruct (_ || _ || _); cbn [st_fees fz_pool fuzz_fees owner_withdraw_fee_num owner_withdraw_fee_den]; lia.
      - intros ->. unfold exit_charge. rewrite Bool.orb_true_r. reflexivity. }
    apply Z.nle_gt. intros L2.
    assert (V1 : balance w (side_vault d fz_pool) + balance w (acc_on d t) <= 1068000000000 /\ n <= balance w (side_vault d fz_pool)).
    { unfold acc_on. destruct d; cbn [side_vault fz_pool st_token_a st_token_b]; lia. }
    assert (q < 0 -> q * 30 / 10000 < 0) by (intros; apply Z.div_lt_upper_bound; lia).
    pose proof (r_high _ _ _ _ R4) as RH. unfold u64_max, all_value, unit_value in *. lia.
Qed.

Lemma run_funds l i : Forall fuzz_ok (i :: l) -> Z.of_nat (length l) <= 100000 ->
  exists w, fuzz_run fuzz_start l = Some w /\ (exec ex_env [900] w (fuzz_call w i) = Err EToken -> lacks_funds w i).
Proof.
  intros H L. inversion H as [| ? ? Hi Hl]; subst.
  destruct (run_good l fuzz_start 0 ltac:(lia) ltac:(lia) after_start start_good Hl) as (w & E & A & G).
  rewrite Z.add_0_l in A, G. assert (R := after_range _ _ (conj (Nat2Z.is_nonneg _) L) A).
  exists w. split; [exact E |]. destruct (after_bounds _ _ A) as (S0 & _).
  apply call_funds; [exact (proj1 A) | exact Hi | exact S0 | exact R |].
  exact (ratio_four _ _ _ _ _ (conj (Nat2Z.is_nonneg _) L) R (g_ratio _ _ _ _ _ G)).
Qed.
