(** What a run of the fuzz test does to the value of the pool. *)
From Verif Require Import Ints Tactics SplMath Fees LinearCurve ConstantPrice SwapCurve Codec Token Processor Api History
  Spec LedgerSpec WireSpec TotalSpec LiveSpec RequestSpec TraceSpec CurveFacts LinearFacts SwapFacts CurveProps CodecFacts TokenFacts ProcFacts
  AmountFacts EffectFacts QuoteSpec QuoteFacts TradeFacts CreateFacts PermFacts HistoryFacts LiquidityFacts VaultFacts LedgerPrice TotalFacts
  LedgerExamples HistoryExamples Fuzz FuzzSpec FuzzState.

(** The tokens that no user of the test can spend. *)
Definition kept (w : world) : Z := balance w 304 + balance w 303.

Lemma worth_eq w : worth w fz_pool fuzz_price = pool_worth w.
Proof. reflexivity. Qed.
Lemma shares_eq w : shares w fz_pool = supply w 403.
Proof. reflexivity. Qed.

Lemma fz_curve : st_curve fz_pool = ConstantPrice fuzz_price.
Proof. reflexivity. Qed.

Lemma kept_le w id : fz w -> is_id id -> kept w + balance w (acc_p id) <= supply w 403.
Proof.
  intros F H. rewrite <- (fz_tp _ F). unfold list_p. cbn [total].
  rewrite (held_holds _ _ _ _ 403 (fz_p _ F 303 (or_introl eq_refl))), (held_holds _ _ _ _ 403 (fz_p _ F 304 (or_intror (or_introl eq_refl)))), Z.eqb_refl.
  assert (I : In (acc_p id) (ids 3000)) by (apply in_ids; exact H).
  pose proof (held_le w 403 _ _ (proj1 (fz_inv _ F)) I) as L.
  rewrite (held_holds _ _ _ _ 403 (fz_p _ F _ (or_intror (or_intror I)))), Z.eqb_refl in L. unfold kept. lia.
Qed.

Ltac at_keys := unfold only_at, acc_on, acc_a, acc_b, acc_p, is_id in *;
  repeat match goal with |- context [if ?x =? ?y then _ else _] => destruct (Z.eqb_spec x y); try lia end; try lia.

(** The share of the pool that stands behind the kept tokens falls by at most the price of one token B. *)
Definition kept_share (w w' : world) : Prop :=
  pool_worth w * kept w * supply w' 403 <= (pool_worth w' * kept w' + fuzz_price * supply w' 403) * supply w 403 /\
  balance w' 304 = balance w 304.

Lemma swap_kept w a b d n m w' : fz w -> is_id a -> is_id b -> 0 < supply w 403 ->
  exec ex_env [900] w (fuzz_call w (FSwap a b d n m)) = Ok w' -> kept_share w w'.
Proof.
  intros F Ia Ib S0 H. pose proof (fz_inv _ F) as I. pose proof (proj1 I) as W.
  set (i := fuzz_call w (FSwap a b d n m)) in *.
  assert (E : exists l, i = Swap l n m /\ nth 0 l 0 = 300 /\ nth 7 l 0 = 403 /\ nth 8 l 0 = 303 /\
    Forall (fun k => k <> 303 /\ k <> 304) [nth 3 l 0; nth 4 l 0; nth 5 l 0; nth 6 l 0]).
  { unfold i, fuzz_call. destruct d; eexists; repeat split; repeat (apply Forall_cons; [cbn [nth]; at_keys |]); apply Forall_nil. }
  destruct E as (l & -> & E0 & E7 & E8 & Ek). 
  assert (P : pool_at w (nth 0 l 0) fz_pool) by (rewrite E0; exact (fz_state _ F)).
  destruct (swap_price _ _ _ _ _ _ _ _ _ ex_env_ok I H P fz_curve) as (M0 & _ & L1 & L2). cbv zeta in L2.
  pose proof (swap_effect _ _ _ _ _ _ _ W H) as (s & r & minted & _ & Eff). cbv zeta in Eff.
  destruct Eff as (_ & _ & _ & _ & _ & _ & Mi & (B & Su & _)).
  rewrite E7, E8 in *. rewrite worth_eq, shares_eq in *. rewrite (worth_eq w'), (shares_eq w') in *.
  inversion Ek as [| ? ? (A1 & A2) Ek1]; subst. inversion Ek1 as [| ? ? (A3 & A4) Ek2]; subst.
  inversion Ek2 as [| ? ? (A5 & A6) Ek3]; subst. inversion Ek3 as [| ? ? (A7 & A8) _]; subst.
  pose proof (B 303) as B3. pose proof (B 304) as B4. specialize (Su 403). unfold only_at in B3, B4, Su.
  rewrite Z.eqb_refl in *.
  repeat match type of B3 with context [if ?x =? ?y then _ else _] => destruct (Z.eqb_spec x y); [exfalso; congruence |] end.
  repeat match type of B4 with context [if ?x =? ?y then _ else _] => destruct (Z.eqb_spec x y); [exfalso; congruence |] end.
  split; [| lia].
  pose proof (kept_le w a F Ia) as KL. pose proof (balance_u64 w (acc_p a) W) as U1. pose proof (balance_u64 w 303 W) as U3.
  pose proof (balance_u64 w 304 W) as U4. unfold is_u64 in *.
  assert (V0 : 0 <= pool_worth w).
  { unfold pool_worth, pool_value. pose proof (balance_u64 w 301 W) as UA. pose proof (balance_u64 w 302 W) as UB.
    unfold is_u64, fuzz_price in *. lia. }
  assert (K : kept w' = kept w + minted) by (unfold kept; lia). rewrite K, Su in *.
  assert (K0 : 0 <= kept w <= supply w 403) by (unfold kept in *; lia).
  replace (supply w 403 + minted - supply w 403) with minted in * by lia.
  revert Mi L1 L2 S0 V0 K0. generalize (pool_worth w) (pool_worth w') (kept w) (supply w 403). clear.
  intros V V' K S M0 L1 L2 S0 V0 K0.
  assert (0 <= fuzz_price * (S + minted) * S) by (unfold fuzz_price; apply Z.mul_nonneg_nonneg; lia).
  assert (V * K * (S + minted) <= V' * (K + minted) * S); [| lia].
  destruct (Z.eq_dec minted 0) as [-> | N].
  - rewrite !Z.add_0_r. apply Z.mul_le_mono_nonneg_r; [lia |]. apply Z.mul_le_mono_nonneg_r; lia.
  - rewrite Z.max_r in L2 by lia.
    assert ((K + minted) * (V * (S + (minted - 1))) <= (K + minted) * (V' * S)) by (apply Z.mul_le_mono_nonneg_l; lia).
    assert (V * (K * (S + minted)) <= V * ((K + minted) * (S + (minted - 1)))).
    { apply Z.mul_le_mono_nonneg_l; [lia |].
      assert (1 * S <= minted * (S + minted - 1)) by (apply Z.mul_le_mono_nonneg; lia). lia. }
    lia.
Qed.

Lemma worth_nonneg w : world_wf w -> 0 <= pool_worth w.
Proof.
  intros W. unfold pool_worth, pool_value. pose proof (balance_u64 w 301 W) as UA. pose proof (balance_u64 w 302 W) as UB.
  unfold is_u64, fuzz_price in *. lia.
Qed.
Lemma kept_bounds w : fz w -> 0 <= kept w <= supply w 403.
Proof.
  intros F. pose proof (proj1 (fz_inv _ F)) as W. assert (I0 : is_id 0) by (unfold is_id; lia).
  pose proof (kept_le w 0 F I0) as KL. pose proof (balance_u64 w (acc_p 0) W) as U1. pose proof (balance_u64 w 303 W) as U3.
  pose proof (balance_u64 w 304 W) as U4. unfold is_u64, kept in *. lia.
Qed.

Lemma deposit_all_kept w a b q n ma mb w' : fz w -> is_id a -> is_id b -> is_id q -> 0 < supply w 403 ->
  exec ex_env [900] w (fuzz_call w (FDepositAll a b q n ma mb)) = Ok w' -> kept_share w w'.
Proof.
  intros F Ia Ib Iq S0 H. pose proof (fz_inv _ F) as I. pose proof (proj1 I) as W. cbn [fuzz_call] in H.
  destruct (deposit_all_price _ _ _ _ _ _ _ _ _ _ ex_env_ok I H (fz_state _ F) fz_curve S0) as (L1 & L2).
  pose proof (deposit_all_effect _ _ _ _ _ _ _ _ W H) as (s & x & y & _ & Eff). cbv zeta in Eff. cbn [nth] in Eff.
  rewrite !worth_eq, !shares_eq in *.
  destruct (Z.eqb_spec (supply w 403) 0) as [E | _]; [lia |]. destruct Eff as (_ & _ & _ & (B & _)).
  assert (B3 : balance w' 303 = balance w 303) by (rewrite B; at_keys).
  assert (B4 : balance w' 304 = balance w 304) by (rewrite B; at_keys).
  split; [| exact B4]. pose proof (kept_bounds _ F) as K0. pose proof (worth_nonneg w W) as V0.
  assert (K : kept w' = kept w) by (unfold kept; lia). rewrite K.
  revert L1 L2 S0 V0 K0. generalize (pool_worth w) (pool_worth w') (kept w) (supply w 403) (supply w' 403). clear.
  intros V V' K S S' L1 L2 S0 V0 K0.
  assert (K * (V * S') <= K * (V' * S + (S' - S))) by (apply Z.mul_le_mono_nonneg_l; lia).
  assert (K * (S' - S) <= S * S') by (apply Z.mul_le_mono_nonneg; lia).
  assert (0 <= S * S') by (apply Z.mul_nonneg_nonneg; lia).
  replace ((V' * K + fuzz_price * S') * S) with (K * (V' * S) + fuzz_price * (S * S')) by ring. unfold fuzz_price. lia.
Qed.

Lemma deposit_single_kept w t d q n m w' : fz w -> is_id t -> is_id q -> 0 < supply w 403 ->
  exec ex_env [900] w (fuzz_call w (FDepositSingle t d q n m)) = Ok w' -> kept_share w w'.
Proof.
  intros F It Iq S0 H. pose proof (fz_inv _ F) as I. pose proof (proj1 I) as W. cbn [fuzz_call] in H.
  pose proof (deposit_single_price _ _ _ _ _ _ _ _ _ ex_env_ok I H (fz_state _ F) fz_curve S0) as L1.
  pose proof (deposit_single_effect _ _ _ _ _ _ _ W H) as (s & d1 & x & _ & Eff). cbv zeta in Eff. cbn [nth] in Eff.
  rewrite !worth_eq, !shares_eq in *. destruct Eff as (_ & _ & _ & X0 & _ & (B & Su & _)).
  assert (B3 : balance w' 303 = balance w 303) by (rewrite B; destruct d1, d; at_keys).
  assert (B4 : balance w' 304 = balance w 304) by (rewrite B; destruct d1, d; at_keys).
  assert (L2 : supply w 403 <= supply w' 403) by (rewrite Su; at_keys).
  split; [| exact B4]. pose proof (kept_bounds _ F) as K0. pose proof (worth_nonneg w W) as V0.
  assert (K : kept w' = kept w) by (unfold kept; lia). rewrite K.
  revert L1 L2 S0 V0 K0. generalize (pool_worth w) (pool_worth w') (kept w) (supply w 403) (supply w' 403). clear.
  intros V V' K S S' L1 L2 S0 V0 K0.
  assert (K * (V * S') <= K * (V' * S)) by (apply Z.mul_le_mono_nonneg_l; lia).
  assert (0 <= S * S') by (apply Z.mul_nonneg_nonneg; lia).
  replace ((V' * K + fuzz_price * S') * S) with (K * (V' * S) + fuzz_price * (S * S')) by ring. unfold fuzz_price. lia.
Qed.

Lemma withdraw_all_kept w a b q n ma mb w' : fz w -> is_id a -> is_id b -> is_id q -> 0 < supply w 403 ->
  exec ex_env [900] w (fuzz_call w (FWithdrawAll a b q n ma mb)) = Ok w' -> kept_share w w'.
Proof.
  intros F Ia Ib Iq S0 H. pose proof (fz_inv _ F) as I. pose proof (proj1 I) as W. cbn [fuzz_call] in H.
  pose proof (withdraw_all_price _ _ _ _ _ _ _ _ _ _ ex_env_ok I signers_900 H (fz_state _ F) fz_curve S0) as L1.
  destruct (trade_keeps_pools _ _ _ _ _ W H (fun x => x)) as (W' & _ & _).
  pose proof (withdraw_all_effect _ _ _ _ _ _ _ _ W H) as (s & c & x & y & _ & Eff). cbv zeta in Eff. cbn [nth] in Eff.
  rewrite !worth_eq, !shares_eq in *. destruct Eff as (_ & C & _ & _ & _ & _ & _ & _ & _ & (B & _)).
  assert (B3 : balance w' 303 = balance w 303 + c) by (rewrite B; at_keys).
  assert (B4 : balance w' 304 = balance w 304) by (rewrite B; at_keys).
  split; [| exact B4]. pose proof (kept_bounds _ F) as K0. pose proof (worth_nonneg w W) as V0.
  pose proof (worth_nonneg w' W') as V0'. pose proof (supply_u64 w' 403 W') as S'. unfold is_u64 in S'. apply proj1 in S'.
  assert (K : kept w' = kept w + c) by (unfold kept; lia). rewrite K. apply proj1 in C.
  revert L1 S' C S0 V0 V0' K0. generalize (pool_worth w) (pool_worth w') (kept w) (supply w 403) (supply w' 403). clear.
  intros V V' K S S' L1 L2 C S0 V0 V0' K0.
  assert (K * (V * S') <= K * (V' * S)) by (apply Z.mul_le_mono_nonneg_l; lia).
  assert (0 <= S * S') by (apply Z.mul_nonneg_nonneg; lia).
  assert (0 <= c * (V' * S)) by (repeat apply Z.mul_nonneg_nonneg; lia).
  replace ((V' * (K + c) + fuzz_price * S') * S) with (K * (V' * S) + c * (V' * S) + fuzz_price * (S * S')) by ring. unfold fuzz_price. lia.
Qed.

Lemma fee_value amount num den fee : 0 < amount -> 0 < num -> 0 < den -> calculate_fee amount num den = Val fee ->
  fee = Z.max 1 (amount * num / den).
Proof.
  intros A N D E. destruct (fee_exact amount num den) as [Q | [Q | Q]]; [| nia | lia].
  rewrite Q in E. unfold fee_of in E. destruct (Z.eqb_spec num 0), (Z.eqb_spec amount 0); try lia. cbn [orb] in E.
  destruct ((u128_max <? amount * num) || (den =? 0)); congruence.
Qed.
Lemma fuzz_trade_fee n fee : 0 < n -> trading_fee fuzz_fees (Z.max 1 (n / 2)) = Val fee ->
  fee = 1 \/ 2 <= fee /\ 800 * fee <= n.
Proof.
  intros H E. apply fee_value in E; [| lia | reflexivity | reflexivity]. cbn [fuzz_fees trade_fee_num trade_fee_den] in E.
  set (h := n / 2) in *. pose proof (Z.div_mod n 2 ltac:(lia)) as D. pose proof (Z.mod_pos_bound n 2 ltac:(lia)). fold h in D.
  pose proof (Z.div_mod (Z.max 1 h * 25) 10000 ltac:(lia)). pose proof (Z.mod_pos_bound (Z.max 1 h * 25) 10000 ltac:(lia)).
  set (q := Z.max 1 h * 25 / 10000) in *. lia.
Qed.
Lemma fuzz_exit_fee t c : 0 <= t -> owner_withdraw_fee fuzz_fees t = Val c -> 0 <= c /\ 3 * t <= 2000 * c /\ (t = 0 -> c = 0).
Proof.
  intros H E. destruct (Z.eq_dec t 0) as [-> | N]; [cbn in E; injection E as <-; lia |].
  apply fee_value in E; [| lia | reflexivity | reflexivity]. cbn [fuzz_fees owner_withdraw_fee_num owner_withdraw_fee_den] in E.
  pose proof (Z.div_mod (t * 30) 10000 ltac:(lia)). pose proof (Z.mod_pos_bound (t * 30) 10000 ltac:(lia)).
  set (q := t * 30 / 10000) in *. lia.
Qed.

Lemma single_kept V nv fv t c K S : 0 <= V -> 0 < S -> 0 <= t -> 0 <= c -> 0 <= K -> 0 <= fv ->
  S * (nv - fv) <= t * V -> 3 * t <= 2000 * c -> K + c <= S - t -> 0 <= V - nv ->
  fv <= fuzz_price \/ 800 * fv <= nv ->
  V * K * (S - t) <= ((V - nv) * (K + c) + fuzz_price * (S - t)) * S.
Proof.
  intros HV HS Ht Hc HK Hf L1 L2 L3 HV' Hfee.
  assert (P0 : 0 < fuzz_price) by reflexivity. set (p := fuzz_price) in *. clearbody p.
  assert (E : ((V - nv) * (K + c) + p * (S - t)) * S - V * K * (S - t)
              = K * (t * V - S * (nv - fv)) + (V - nv) * c * S + p * (S - t) * S - K * S * fv) by ring.
  assert (E1 : 0 <= K * (t * V - S * (nv - fv))) by (apply Z.mul_nonneg_nonneg; lia).
  destruct Hfee as [Hp | Hp].
  - assert (0 <= (V - nv) * c * S) by (repeat apply Z.mul_nonneg_nonneg; lia).
    assert (K * S * fv <= (S - t) * S * p).
    { apply Z.mul_le_mono_nonneg; [apply Z.mul_nonneg_nonneg; lia | apply Z.mul_le_mono_nonneg_r; lia | lia | lia]. }
    lia.
  - (* the charge, at the old value of a pool token, exceeds the let-off *)
    assert (G : S * fv <= c * V).
    { assert (3 * (t * V) <= 2000 * (c * V)).
      { replace (3 * (t * V)) with (V * (3 * t)) by ring. replace (2000 * (c * V)) with (V * (2000 * c)) by ring.
        apply Z.mul_le_mono_nonneg_l; lia. }
      assert (S * (800 * fv) <= S * nv) by (apply Z.mul_le_mono_nonneg_l; lia).
      assert (0 <= S * fv) by (apply Z.mul_nonneg_nonneg; lia). lia. }
    assert (A1 : c * (V * (S - t) - S * fv) <= (V - nv) * c * S).
    { replace ((V - nv) * c * S) with (c * (V * S - nv * S)) by ring. apply Z.mul_le_mono_nonneg_l; lia. }
    assert (A2 : K * (S * fv) <= (S - t - c) * (S * fv)).
    { apply Z.mul_le_mono_nonneg_r; [apply Z.mul_nonneg_nonneg; lia | lia]. }
    assert (A3 : (S - t) * (S * fv) <= (S - t) * (c * V)) by (apply Z.mul_le_mono_nonneg_l; lia).
    assert (0 <= p * (S - t) * S) by (repeat apply Z.mul_nonneg_nonneg; lia).
    lia.
Qed.

Lemma withdraw_single_kept w t d q n m w' : fz w -> is_id t -> is_id q -> 0 < supply w 403 -> fz w' ->
  exec ex_env [900] w (fuzz_call w (FWithdrawSingle t d q n m)) = Ok w' -> kept_share w w'.
Proof.
  intros F It Iq S0 F' H. pose proof (fz_inv _ F) as I. pose proof (proj1 I) as W. cbn [fuzz_call] in H.
  pose proof (proj1 (fz_inv _ F')) as W'.
  pose proof (withdraw_single_effect _ _ _ _ _ _ _ W H) as (s & d1 & x & c & Hp & Eff). cbv zeta in Eff. cbn [nth] in Hp, Eff.
  rewrite (pool_fun _ _ _ _ Hp (fz_state _ F)) in *.
  destruct Eff as (_ & Q & Fee & X0 & C0 & XC & N0 & (B & Su & _)).
  destruct Fee as [(E & _) | (_ & Fee)]; [exfalso; unfold acc_p, is_id in *; lia |].
  destruct (fuzz_exit_fee _ _ X0 Fee) as (_ & L2 & Z0).
  assert (B3 : balance w' 303 = balance w 303 + c) by (rewrite B; destruct d1, d; at_keys).
  assert (B4 : balance w' 304 = balance w 304) by (rewrite B; destruct d1, d; at_keys).
  assert (Ss : supply w' 403 = supply w 403 - x) by (rewrite Su; at_keys).
  assert (BA : balance w' 301 = balance w 301 - match d1 with AtoB => n | BtoA => 0 end) by (rewrite B; destruct d1, d; at_keys).
  assert (BB : balance w' 302 = balance w 302 - match d1 with AtoB => 0 | BtoA => n end) by (rewrite B; destruct d1, d; at_keys).
  assert (V' : pool_worth w' = pool_worth w - value_of fuzz_price n d1).
  { unfold pool_worth, pool_value, value_of. rewrite BA, BB. destruct d1; ring. }
  split; [| exact B4]. pose proof (kept_bounds _ F) as K0. pose proof (kept_bounds _ F') as K0'. pose proof (worth_nonneg w W) as V0.
  pose proof (worth_nonneg w' W') as V0'.
  assert (K : kept w' = kept w + c) by (unfold kept; lia). rewrite K, V', Ss in *.
  assert (Np : 0 < n).
  { destruct (Z.eq_dec n 0) as [-> | ]; [| lia]. unfold curve_withdraw_single in Q. cbn in Q. injection Q as <-. lia. }
  pose proof (balance_u64 w 301 W) as UA. pose proof (balance_u64 w 302 W) as UB. pose proof (supply_u64 w 403 W) as US.
  destruct (pool_wf _ _ _ W (fz_state _ F)) as (Ws & _). destruct Ws as (_ & _ & _ & _ & _ & _ & _ & _ & Wf & _).
  assert (Up : is_u64 fuzz_price) by (unfold is_u64, fuzz_price, u64_max; lia).
  destruct (cprice_single_withdraw_partial fuzz_price n _ _ _ _ _ x Up Wf Np (proj1 UA) (proj1 UB) (proj1 US) Q ltac:(lia)) as (fee & E & Lf & D).
  apply fuzz_trade_fee in E; [| exact Np]. fold (pool_worth w) in D.
  apply single_kept with (fv := value_of fuzz_price fee d1); try lia.
  - unfold value_of, fuzz_price. destruct d1; lia.
  - etransitivity; [| exact D]. apply Z.eq_le_incl. f_equal. unfold value_of. destruct d1; ring.
  - unfold value_of, fuzz_price. destruct d1; lia.
Qed.
