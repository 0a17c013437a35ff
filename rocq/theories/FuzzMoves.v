(** Each instruction of the fuzz test is a step of FuzzValue.v. *)
From Verif Require Import Ints Tactics SplMath DfsFacts Fees LinearCurve ConstantPrice SwapCurve Codec Token Processor Api History
  Spec LedgerSpec WireSpec TotalSpec LiveSpec RequestSpec TraceSpec CurveFacts LinearFacts SwapFacts CurveProps CodecFacts TokenFacts ProcFacts
  AmountFacts EffectFacts QuoteSpec QuoteFacts TradeFacts CreateFacts PermFacts HistoryFacts LiquidityFacts VaultFacts LedgerPrice TotalFacts
  LedgerExamples HistoryExamples Fuzz FuzzSpec FuzzState FuzzFacts FuzzValue.

Definition moves (w w' : world) : Prop :=
  step (pool_worth w) (balance w 301) (unit_value * supply w 403) (unit_value * balance w 303)
       (pool_worth w') (balance w' 301) (unit_value * supply w' 403) (unit_value * balance w' 303).

Lemma single_fee n fee : 0 < n -> trading_fee fuzz_fees (Z.max 1 (n / 2)) = Val fee ->
  1 <= fee /\ n <= 1600 * fee /\ n <= 800 * fee + 801 /\ (fee = 1 \/ 800 * fee <= n).
Proof.
  intros H E. apply fee_value in E; [| lia | reflexivity | reflexivity]. cbn [fuzz_fees trade_fee_num trade_fee_den] in E.
  set (h := n / 2) in *. pose proof (Z.div_mod n 2 ltac:(lia)) as D. pose proof (Z.mod_pos_bound n 2 ltac:(lia)). fold h in D.
  pose proof (Z.div_mod (Z.max 1 h * 25) 10000 ltac:(lia)). pose proof (Z.mod_pos_bound (Z.max 1 h * 25) 10000 ltac:(lia)).
  set (q := Z.max 1 h * 25 / 10000) in *. lia.
Qed.
Lemma exit_fee t c : 0 < t -> owner_withdraw_fee fuzz_fees t = Val c -> 1 <= c /\ 3 * t <= 2000 * c /\ 3 * t <= 1000 * (c + 1).
Proof.
  intros N E. apply fee_value in E; [| lia | reflexivity | reflexivity]. cbn [fuzz_fees owner_withdraw_fee_num owner_withdraw_fee_den] in E.
  pose proof (Z.div_mod (t * 30) 10000 ltac:(lia)). pose proof (Z.mod_pos_bound (t * 30) 10000 ltac:(lia)).
  set (q := t * 30 / 10000) in *. lia.
Qed.
Lemma swap_fees n tf of : 0 < n -> trading_fee fuzz_fees n = Val tf -> owner_trading_fee fuzz_fees n = Val of ->
  1 <= tf /\ 1 <= of /\ n <= 400 * (tf + of) /\ (fuzz_price <= n -> 20000 <= tf).
Proof.
  intros N E E'. apply fee_value in E; [| lia | reflexivity | reflexivity]. apply fee_value in E'; [| lia | reflexivity | reflexivity].
  cbn [fuzz_fees trade_fee_num trade_fee_den owner_trade_fee_num owner_trade_fee_den] in E, E'.
  pose proof (Z.div_mod (n * 25) 10000 ltac:(lia)). pose proof (Z.mod_pos_bound (n * 25) 10000 ltac:(lia)).
  set (q := n * 25 / 10000) in *. set (q' := n * 5 / 10000) in *. unfold fuzz_price. lia.
Qed.

Lemma swap_moves w a b d n m w' : fz w -> is_id a -> is_id b -> 0 < supply w 403 ->
  exec ex_env [900] w (fuzz_call w (FSwap a b d n m)) = Ok w' -> moves w w'.
Proof.
  intros F Ia Ib S0 H. pose proof (fz_inv _ F) as I. pose proof (proj1 I) as W.
  assert (P : pool_at w 300 fz_pool) by exact (fz_state _ F).
  assert (Main : exists r minted,
    curve_swap (ConstantPrice fuzz_price) n (match d with AtoB => balance w 301 | BtoA => balance w 302 end)
      (match d with AtoB => balance w 302 | BtoA => balance w 301 end) d fuzz_fees = Val r /\
    0 <= n /\ 0 < destination_amount_swapped r /\ 0 <= minted /\
    balance w' 301 = balance w 301 + (match d with AtoB => source_amount_swapped r | BtoA => - destination_amount_swapped r end) /\
    balance w' 302 = balance w 302 + (match d with AtoB => - destination_amount_swapped r | BtoA => source_amount_swapped r end) /\
    balance w' 303 = balance w 303 + minted /\ supply w' 403 = supply w 403 + minted /\
    pool_worth w <= pool_worth w' /\
    pool_worth w * (supply w 403 + Z.max 0 (minted - 1)) <= pool_worth w' * supply w 403).
  { assert (Cr : creatable (st_curve fz_pool)) by (cbn; exact Logic.I).
    destruct d; cbn [fuzz_call] in H.
    - destruct (swap_price _ _ _ _ _ _ _ _ _ ex_env_ok I H P fz_curve) as (_ & _ & L1 & L2). cbv zeta in L2.
      pose proof (swap_effect _ _ _ _ _ _ _ W H) as (s & r & minted & Hp & Eff). cbv zeta in Eff. cbn [nth] in Hp, Eff.
      rewrite (pool_fun _ _ _ _ Hp P) in *.
      destruct Eff as (Sw & X & Y & Y0 & XY & _ & Mi & (B & Su & _)). destruct (XY Cr) as (X1 & Y1).
      assert (S' : supply w' 403 = supply w 403 + minted) by (rewrite Su; at_keys).
      rewrite !worth_eq, !shares_eq in *. rewrite S' in L2.
      replace (supply w 403 + minted - supply w 403) with minted in L2 by lia.
      exists r, minted. split; [exact Sw |]. split; [lia |]. split; [exact Y1 |]. split; [exact Mi |].
      split; [rewrite B; at_keys |]. split; [rewrite B; at_keys |]. split; [rewrite B; at_keys |]. tauto.
    - destruct (swap_price _ _ _ _ _ _ _ _ _ ex_env_ok I H P fz_curve) as (_ & _ & L1 & L2). cbv zeta in L2.
      pose proof (swap_effect _ _ _ _ _ _ _ W H) as (s & r & minted & Hp & Eff). cbv zeta in Eff. cbn [nth] in Hp, Eff.
      rewrite (pool_fun _ _ _ _ Hp P) in *.
      destruct Eff as (Sw & X & Y & Y0 & XY & _ & Mi & (B & Su & _)). destruct (XY Cr) as (X1 & Y1).
      assert (S' : supply w' 403 = supply w 403 + minted) by (rewrite Su; at_keys).
      rewrite !worth_eq, !shares_eq in *. rewrite S' in L2.
      replace (supply w 403 + minted - supply w 403) with minted in L2 by lia.
      exists r, minted. split; [exact Sw |]. split; [lia |]. split; [exact Y1 |]. split; [exact Mi |].
      split; [rewrite B; at_keys |]. split; [rewrite B; at_keys |]. split; [rewrite B; at_keys |]. tauto. }
  clear H. destruct Main as (r & minted & Sw & N0 & Y1 & M0 & BA & BB & BF & BS & L1 & L2).
  assert (Up : is_u64 fuzz_price) by (unfold is_u64, fuzz_price, u64_max; lia).
  destruct (cprice_curve_swap _ _ _ _ _ _ _ Up ltac:(reflexivity) N0 Sw) as (total & Et & T1 & T2 & Tn & Ev & Es & _).
  assert (N1 : 0 < n).
  { destruct (Z.eq_dec n 0) as [-> | ]; [| lia]. exfalso. cbn in T1, T2. injection T1 as T1. injection T2 as T2.
    destruct d; cbn [opposite value_of] in Ev; unfold fuzz_price in *; lia. }
  destruct (swap_fees n _ _ N1 T1 T2) as (F1 & F2 & F3 & F4). rewrite <- Et in F3.
  set (x := source_amount_swapped r) in *. set (y := destination_amount_swapped r) in *.
  assert (U : pool_worth w' = pool_worth w + value_of fuzz_price total d).
  { unfold pool_worth, pool_value. rewrite BA, BB. destruct d; cbn [opposite value_of] in *; lia. }
  unfold moves. apply by_swap with (u := value_of fuzz_price total d) (m := unit_value * minted)
    (g := match d with AtoB => 0 | BtoA => y end).
  - exact U.
  - rewrite BS. ring.
  - rewrite BF. ring.
  - rewrite BA. destruct d; [| lia]. cbn [value_of opposite] in Ev. unfold fuzz_price in *. lia.
  - destruct d; cbn [value_of]; unfold fuzz_price; lia.
  - unfold unit_value. lia.
  - destruct d; lia.
  - destruct d; cbn [value_of opposite] in *; [lia |]. unfold fuzz_price in *. lia.
  - destruct (Z.eq_dec minted 0) as [-> | Mn]; [left; lia |]. right. split.
    + destruct d; cbn [value_of opposite] in *; unfold fuzz_price in *; lia.
    + rewrite Z.max_r in L2 by lia.
      replace (unit_value * supply w 403 + unit_value * minted - unit_value)
        with (unit_value * (supply w 403 + (minted - 1))) by ring.
      replace (pool_worth w * (unit_value * (supply w 403 + (minted - 1))))
        with (unit_value * (pool_worth w * (supply w 403 + (minted - 1)))) by ring.
      replace (pool_worth w' * (unit_value * supply w 403)) with (unit_value * (pool_worth w' * supply w 403)) by ring.
      apply Z.mul_le_mono_nonneg_l; [unfold unit_value; lia | exact L2].
Qed.

Lemma cprice_deposit_parts p n supply a b x y :
  0 < p -> 0 <= n -> 0 < supply -> 0 <= a -> 0 <= b ->
  cprice_pool_tokens_to_trading_tokens p n supply a b Ceiling = Val (x, y) -> 0 < x -> 0 < y ->
  n * (pool_value p a b / 2) <= x * supply /\ p * y <= x + p.
Proof.
  intros Hp Hn Hs Ha Hb H Hx Hy. unfold cprice_pool_tokens_to_trading_tokens in H. inv.
  match goal with H : cprice_normalized_value _ _ _ = Val _ |- _ =>
    apply cprice_value_half in H; [| lia | lia | lia] end. subst.
  match goal with H : spl_to_imprecise _ = Val _ |- _ =>
    apply spl_whole_to_imprecise in H; [| apply Z.div_pos; unfold pool_value; nia] end. subst.
  assert (HV : 0 <= pool_value p a b) by (unfold pool_value; nia).
  set (V := pool_value p a b) in *. assert (0 <= V / 2) by (apply Z.div_pos; lia).
  set (t := V / 2) in *. assert (Hnt : 0 <= n * t) by nia.
  repeat match goal with
    H : checked_ceil_div _ (n * t) _ = Val _ |- _ => apply ceil_div_spec in H; [| lia | lia] end.
  match goal with
    H : checked_ceil_div _ ?z _ = Val _ |- _ => assert (0 <= z) by nia; apply ceil_div_spec in H; [| lia | lia] end.
  assert (A1 : n * t <= x * supply).
  { destruct Hm2 as (_ & [(L & _ & [(_ & E) | (_ & E)]) | (_ & _ & (_ & E) & _)]); [lia | subst x; lia | exact E]. }
  split; [exact A1 |]. clear Hm2.
  destruct (Z.eq_dec y 1) as [-> | Ny]; [lia |].
  destruct Hm1 as (_ & [(_ & _ & [(_ & E) | (_ & E)]) | (_ & _ & (E & _) & _)]); [lia | lia |].
  assert (1 * 1 <= (y - 1) * supply) by (apply Z.mul_le_mono_nonneg; lia).
  destruct Hm3 as (_ & [(_ & _ & [(_ & E') | (_ & E')]) | (_ & _ & (E' & _) & _)]); [lia | lia |].
  assert (p * ((y - 1) * supply) <= p * (z1 - 1)) by (apply Z.mul_le_mono_nonneg_l; lia).
  assert (L : supply * (p * (y - 1)) < supply * x) by lia.
  apply Z.mul_lt_mono_pos_l in L; lia.
Qed.

Lemma deposit_all_moves w a b q n ma mb w' : fz w -> is_id a -> is_id b -> is_id q -> is_u64 n -> 0 < supply w 403 ->
  exec ex_env [900] w (fuzz_call w (FDepositAll a b q n ma mb)) = Ok w' -> moves w w'.
Proof.
  intros F Ia Ib Iq Un S0 H. pose proof (fz_inv _ F) as I. pose proof (proj1 I) as W. cbn [fuzz_call] in H.
  pose proof (deposit_all_effect _ _ _ _ _ _ _ _ W H) as (s & x & y & Hp & Eff). cbv zeta in Eff. cbn [nth] in Hp, Eff.
  rewrite (pool_fun _ _ _ _ Hp (fz_state _ F)) in *. clear H.
  destruct (Z.eqb_spec (supply w 403) 0) as [E | _]; [lia |]. destruct Eff as (Q & (X0 & _) & (Y0 & _) & (B & Su & _)).
  set (k := avoid_one n) in *.
  assert (K0 : 0 <= k) by (unfold k, avoid_one, is_u64 in *; destruct (n =? 1); lia).
  pose proof (balance_u64 w 301 W) as UA. pose proof (balance_u64 w 302 W) as UB. unfold is_u64 in UA, UB.
  assert (Up : 0 < fuzz_price) by reflexivity.
  change (cprice_pool_tokens_to_trading_tokens fuzz_price k (supply w 403) (balance w 301) (balance w 302) Ceiling = Val (x, y)) in Q.
  pose proof (cprice_deposit_both _ _ _ _ _ _ _ Up K0 S0 (proj1 UA) (proj1 UB) Q X0 Y0) as L1.
  destruct (cprice_deposit_parts _ _ _ _ _ _ _ Up K0 S0 (proj1 UA) (proj1 UB) Q X0 Y0) as (L2 & L3).
  fold (pool_worth w) in L1, L2.
  assert (K1 : 1 <= k).
  { destruct (Z.eq_dec k 0) as [E | ]; [| lia]. rewrite E in Q. exfalso.
    unfold cprice_pool_tokens_to_trading_tokens in Q. inv.
    match goal with H : checked_ceil_div _ (0 * _) (supply w 403) = Val _ |- _ =>
      rewrite Z.mul_0_l in H; apply ceil_div_spec in H; [| lia | lia]; lia end. }
  unfold moves. apply by_deposit_all with (n := unit_value * k) (x := pool_value fuzz_price x y) (a := x).
  - unfold pool_worth, pool_value. rewrite !B. unfold fuzz_price. at_keys.
  - rewrite Su. at_keys.
  - rewrite B. f_equal. at_keys.
  - rewrite B. at_keys.
  - unfold pool_value, fuzz_price. lia.
  - exact X0.
  - unfold unit_value. lia.
  - change price_b with fuzz_price. unfold pool_value. lia.
  - replace (unit_value * k * (2 * (pool_worth w / 2))) with (unit_value * (k * (2 * (pool_worth w / 2)))) by ring.
    replace (pool_value fuzz_price x y * (unit_value * supply w 403))
      with (unit_value * (pool_value fuzz_price x y * supply w 403)) by ring.
    apply Z.mul_le_mono_nonneg_l; [unfold unit_value; lia | exact L1].
  - replace (unit_value * k * (pool_worth w / 2)) with (unit_value * (k * (pool_worth w / 2))) by ring.
    replace (x * (unit_value * supply w 403)) with (unit_value * (x * supply w 403)) by ring.
    apply Z.mul_le_mono_nonneg_l; [unfold unit_value; lia | exact L2].
Qed.

Lemma deposit_single_moves w t d q n m w' : fz w -> is_id t -> is_id q -> 0 < supply w 403 ->
  exec ex_env [900] w (fuzz_call w (FDepositSingle t d q n m)) = Ok w' -> moves w w'.
Proof.
  intros F It Iq S0 H. pose proof (fz_inv _ F) as I. pose proof (proj1 I) as W. cbn [fuzz_call] in H.
  pose proof (deposit_single_effect _ _ _ _ _ _ _ W H) as (s & d1 & x & Hp & Eff). cbv zeta in Eff. cbn [nth] in Hp, Eff.
  rewrite (pool_fun _ _ _ _ Hp (fz_state _ F)) in *. clear H.
  destruct Eff as (_ & Q & _ & X0 & N0 & (B & Su & _)).
  destruct (Z.eqb_spec (supply w 403) 0) as [E | _]; [lia |].
  assert (BA : balance w' 301 = balance w 301 + match d1 with AtoB => n | BtoA => 0 end) by (rewrite B; destruct d1, d; at_keys).
  assert (BB : balance w' 302 = balance w 302 + match d1 with AtoB => 0 | BtoA => n end) by (rewrite B; destruct d1, d; at_keys).
  pose proof (balance_u64 w 301 W) as UA. pose proof (balance_u64 w 302 W) as UB. unfold is_u64 in UA, UB.
  assert (N1 : 0 < n).
  { destruct (Z.eq_dec n 0) as [-> | ]; [| lia]. unfold curve_deposit_single in Q. cbn in Q. injection Q as <-. lia. }
  destruct (pool_wf _ _ _ W (fz_state _ F)) as (Ws & _). destruct Ws as (_ & _ & _ & _ & _ & _ & _ & _ & Wf & _).
  destruct (curve_deposit_single_inner _ _ _ _ _ _ _ _ Wf N1 Q) as (fee & E & Lf & C).
  apply single_fee in E; [| exact N1]. destruct E as (E1 & E2 & E3 & _).
  change (cprice_deposit_single fuzz_price (n - fee) (balance w 301) (balance w 302) (supply w 403) d1 = Val x) in C.
  apply cprice_deposit_single_bound in C; [| unfold fuzz_price; lia | lia | lia | lia | lia].
  destruct C as (_ & _ & (C & _)). fold (pool_worth w) in C.
  unfold moves. apply by_deposit with (n := unit_value * x) (x := value_of fuzz_price n d1) (c := value_of fuzz_price fee d1).
  - unfold pool_worth, pool_value, value_of. rewrite BA, BB. destruct d1; ring.
  - rewrite Su. at_keys.
  - rewrite B. f_equal. destruct d1, d; at_keys.
  - rewrite BA. destruct d1; lia.
  - unfold value_of, fuzz_price. destruct d1; lia.
  - unfold unit_value. lia.
  - unfold value_of, fuzz_price. destruct d1; lia.
  - unfold value_of, fuzz_price. destruct d1; lia.
  - unfold value_of, fuzz_price. destruct d1; lia.
  - unfold value_of, fuzz_price, price_b. destruct d1; lia.
  - replace (unit_value * x * pool_worth w) with (unit_value * (x * pool_worth w)) by ring.
    replace (value_of fuzz_price n d1 - value_of fuzz_price fee d1) with (value_of fuzz_price (n - fee) d1)
      by (unfold value_of; destruct d1; ring).
    rewrite <- Z.mul_assoc. apply Z.mul_le_mono_nonneg_l; [unfold unit_value; lia | exact C].
Qed.

Lemma withdraw_all_moves w a b q n ma mb w' : fz w -> is_id a -> is_id b -> is_id q -> 0 < supply w 403 ->
  exec ex_env [900] w (fuzz_call w (FWithdrawAll a b q n ma mb)) = Ok w' -> moves w w'.
Proof.
  intros F Ia Ib Iq S0 H. pose proof (fz_inv _ F) as I. pose proof (proj1 I) as W. cbn [fuzz_call] in H.
  pose proof (withdraw_all_price _ _ _ _ _ _ _ _ _ _ ex_env_ok I signers_900 H (fz_state _ F) fz_curve S0) as L1.
  pose proof (withdraw_all_effect _ _ _ _ _ _ _ _ W H) as (s & c & x & y & Hp & Eff). cbv zeta in Eff. cbn [nth] in Hp, Eff.
  rewrite (pool_fun _ _ _ _ Hp (fz_state _ F)) in *. clear H.
  rewrite !worth_eq, !shares_eq in *. destruct Eff as (Fee & C & Q & LA & LB & A0 & B0 & _ & _ & (B & Su & _)).
  destruct Fee as [(E & _) | (_ & Fee)]; [exfalso; unfold acc_p, is_id in *; lia |].
  set (k := leave_none (balance w (acc_p q)) n) in *.
  pose proof (balance_u64 w 301 W) as UA. pose proof (balance_u64 w 302 W) as UB. unfold is_u64 in UA, UB.
  assert (S' : supply w' 403 = supply w 403 - (k - c)) by (rewrite Su; at_keys).
  assert (CK : 0 <= c /\ 3 * (k - c) <= 2000 * c).
  { destruct (Z.eq_dec k 0) as [E | ]; [lia |]. apply exit_fee in Fee; lia. }
  change (cprice_pool_tokens_to_trading_tokens fuzz_price (k - c) (supply w 403) (balance w 301) (balance w 302) Floor = Val (x, y)) in Q.
  assert (Up : 0 < fuzz_price) by reflexivity.
  assert (X : 2 * x * supply w 403 <= (k - c) * pool_worth w).
  { clear - Q UA UB C S0 Up. unfold cprice_pool_tokens_to_trading_tokens in Q. inv.
    match goal with H : cprice_normalized_value _ _ _ = Val _ |- _ =>
      apply cprice_value_half in H; [| lia | lia | lia] end. subst.
    assert (HV : 0 <= pool_value fuzz_price (balance w 301) (balance w 302)) by (unfold pool_value, fuzz_price; lia).
    match goal with H : spl_to_imprecise _ = Val _ |- _ =>
      apply spl_whole_to_imprecise in H; [| apply Z.div_pos; lia] end. subst.
    fold (pool_worth w) in *. set (V := pool_worth w) in *.
    pose proof (div_bounds V 2 ltac:(lia)) as DV. set (h := V / 2) in *.
    pose proof (div_bounds ((k - c) * h) (supply w 403) S0) as D1.
    assert ((k - c) * (2 * h) <= (k - c) * V) by (apply Z.mul_le_mono_nonneg_l; lia). lia. }
  unfold moves. apply by_withdraw_all with (t := unit_value * (k - c)) (f := unit_value * c) (g := Z.min (balance w 301) x).
  - rewrite S'. ring.
  - rewrite B. at_keys.
  - rewrite B. at_keys.
  - unfold pool_worth, pool_value. rewrite !B. unfold fuzz_price. at_keys.
  - unfold unit_value. lia.
  - unfold unit_value. lia.
  - lia.
  - replace (pool_worth w * (unit_value * supply w' 403)) with (unit_value * (pool_worth w * supply w' 403)) by ring.
    replace (pool_worth w' * (unit_value * supply w 403)) with (unit_value * (pool_worth w' * supply w 403)) by ring.
    apply Z.mul_le_mono_nonneg_l; [unfold unit_value; lia | exact L1].
  - apply Z.le_trans with (unit_value * (2 * x * supply w 403)).
    + replace (2 * Z.min (balance w 301) x * (unit_value * supply w 403))
        with (unit_value * (2 * Z.min (balance w 301) x * supply w 403)) by ring.
      apply Z.mul_le_mono_nonneg_l; [unfold unit_value; lia |]. apply Z.mul_le_mono_nonneg_r; lia.
    + replace (unit_value * (k - c) * pool_worth w) with (unit_value * ((k - c) * pool_worth w)) by ring.
      apply Z.mul_le_mono_nonneg_l; [unfold unit_value; lia | exact X].
  - unfold unit_value. lia.
Qed.

Lemma withdraw_single_moves w t d q n m w' : fz w -> is_id t -> is_id q -> 0 < supply w 403 -> fz w' ->
  exec ex_env [900] w (fuzz_call w (FWithdrawSingle t d q n m)) = Ok w' -> moves w w'.
Proof.
  intros F It Iq S0 F' H. pose proof (fz_inv _ F) as I. pose proof (proj1 I) as W. cbn [fuzz_call] in H.
  pose proof (proj1 (fz_inv _ F')) as W'.
  pose proof (withdraw_single_effect _ _ _ _ _ _ _ W H) as (s & d1 & x & c & Hp & Eff). cbv zeta in Eff. cbn [nth] in Hp, Eff.
  rewrite (pool_fun _ _ _ _ Hp (fz_state _ F)) in *. clear H.
  destruct Eff as (_ & Q & Fee & X0 & C0 & XC & N0 & (B & Su & _)).
  destruct Fee as [(E & _) | (_ & Fee)]; [exfalso; unfold acc_p, is_id in *; lia |].
  destruct (fuzz_exit_fee _ _ X0 Fee) as (_ & _ & Z0).
  assert (X1 : 0 < x) by (destruct (Z.eq_dec x 0) as [E | ]; [specialize (Z0 E) |]; lia).
  destruct (exit_fee _ _ X1 Fee) as (C1 & C2 & C3).
  assert (B3 : balance w' 303 = balance w 303 + c) by (rewrite B; destruct d1, d; at_keys).
  assert (Ss : supply w' 403 = supply w 403 - x) by (rewrite Su; at_keys).
  assert (BA : balance w' 301 = balance w 301 - match d1 with AtoB => n | BtoA => 0 end) by (rewrite B; destruct d1, d; at_keys).
  assert (BB : balance w' 302 = balance w 302 - match d1 with AtoB => 0 | BtoA => n end) by (rewrite B; destruct d1, d; at_keys).
  assert (Np : 0 < n).
  { destruct (Z.eq_dec n 0) as [-> | ]; [| lia]. unfold curve_withdraw_single in Q. cbn in Q. injection Q as <-. lia. }
  pose proof (balance_u64 w 301 W) as UA. pose proof (balance_u64 w 302 W) as UB. pose proof (supply_u64 w 403 W) as US.
  destruct (pool_wf _ _ _ W (fz_state _ F)) as (Ws & _). destruct Ws as (_ & _ & _ & _ & _ & _ & _ & _ & Wf & _).
  assert (Up : is_u64 fuzz_price) by (unfold is_u64, fuzz_price, u64_max; lia).
  destruct (cprice_single_withdraw_partial fuzz_price n _ _ _ _ _ x Up Wf Np (proj1 UA) (proj1 UB) (proj1 US) Q ltac:(lia)) as (fee & E & Lf & D).
  apply single_fee in E; [| exact Np]. destruct E as (E1 & _ & _ & E4). fold (pool_worth w) in D.
  assert (HA : balance w 301 <= 356000000000).
  { rewrite <- (fz_ta _ F). pose proof (held_le w 201 list_a 301 W (or_introl eq_refl)) as L.
    rewrite (held_holds _ _ _ _ 201 (fz_a _ F 301 (or_introl eq_refl))), Z.eqb_refl in L. exact L. }
  pose proof (balance_u64 w' 301 W') as UA'. unfold is_u64 in UA, UA', UB, US.
  unfold moves. apply by_withdraw with (n := value_of fuzz_price n d1) (c := value_of fuzz_price fee d1)
    (t := unit_value * x) (f := unit_value * c) (g := match d1 with AtoB => n | BtoA => 0 end).
  - unfold pool_worth, pool_value, value_of. rewrite BA, BB. destruct d1; ring.
  - rewrite Ss. ring.
  - rewrite B3. ring.
  - rewrite BA. lia.
  - unfold value_of, fuzz_price. destruct d1; lia.
  - unfold value_of, fuzz_price. destruct d1; lia.
  - unfold value_of, fuzz_price. destruct d1; lia.
  - unfold unit_value. lia.
  - unfold unit_value. lia.
  - destruct d1; lia.
  - unfold value_of, fuzz_price, price_b. destruct d1; lia.
  - unfold value_of, fuzz_price. destruct d1; [right | left; reflexivity]. lia.
  - replace (value_of fuzz_price n d1 - value_of fuzz_price fee d1) with (value_of fuzz_price (n - fee) d1)
      by (unfold value_of; destruct d1; ring).
    rewrite <- !Z.mul_assoc. apply Z.mul_le_mono_nonneg_l; [unfold unit_value; lia | exact D].
  - unfold unit_value. lia.
  - unfold unit_value. lia.
Qed.
