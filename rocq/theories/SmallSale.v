(** Trades that always go through (C78, C79). *)
From Verif Require Import Ints Tactics DfsPrecise Fees LinearCurve SwapCurve Spec BlockSpec LockSpec DfsFacts LinearFacts SwapFacts LinearExact
  LinearProps LinearRound RedeemFacts LinearBacked BackFacts OfferFacts LockFacts LaterFacts.
From Verif Require Import Codec Token Processor Api History LedgerSpec LiveSpec EffectFacts VaultFacts HistoryFacts LedgerLinear LedgerTrips
  LiveFacts OfferLedger.

Lemma sale_accepted c f X g u n ss a : linear_wf c -> linear_validate c = Ok tt -> feeless f ->
  blur c X g -> one_unit c u -> is_u64 n -> is_u64 ss -> is_u64 a -> ~ blocked c a ->
  cost2_den c * a < cost2 c X -> cost2 c (n * ONE) <= cost2_den c * a -> g + u + 2 * 10 ^ 9 <= (n - 1) * ONE ->
  exists r, curve_swap (LinearPrice c) n ss a BtoA f = Val r.
Proof.
  intros Hc Hv Hf HB HU Hn Hs Ha Nb HX Hcov Hm. pose proof (validated_pos c Hc Hv) as Hp. pose proof ONE_pos as HO.
  destruct (one_unit_cost c u HU) as (U0 & U1). pose proof (cost2_den_pos c Hp) as HD.
  assert (G0 : 0 <= g).
  { destruct HB as (X0 & HB). destruct (Z.le_gt_cases 0 g) as [K | K]; [exact K | exfalso]. pose proof Hp as ((_ & _ & Y & _) & P1 & P2 & P3).
    unfold is_u64 in Y. assert (0 <= price_num c * slope_den c * 10 ^ 18) by (repeat apply Z.mul_nonneg_nonneg; lia).
    assert (0 <= slope_num c * price_den c * X) by (repeat apply Z.mul_nonneg_nonneg; lia).
    assert (0 < slope_num c * price_den c) by (apply Z.mul_pos_pos; lia).
    assert (slope_num c * price_den c * g <= 0) by (apply Z.mul_nonneg_nonpos; lia).
    assert (0 < 1414213566 * slope_den c * price_den c) by (repeat apply Z.mul_pos_pos; lia). lia. }
  unfold is_u64, u64_max in Ha, Hn.
  assert (E0 : exists b0, b_up c a = Val b0).
  { unfold b_up. destruct (b_value_with_amt_a_locked c (a * ONE) true) as [b | |] eqn:E.
    - exists b. reflexivity.
    - exfalso. revert E. apply b_value_up_total; [exact Hp | lia].
    - exfalso. apply Nb. apply (b_up_panic c a Hp ltac:(lia)). exact E. }
  destruct E0 as (b0 & Hb).
  destruct (position_floor c a Hp ltac:(lia)) as (p & P0 & P1 & P2).
  pose proof (b_up_bounds c a b0 Hp ltac:(lia) Hb) as BB.
  assert (Pn : n * ONE <= p).
  { destruct (Z.le_gt_cases (n * ONE) p) as [K | K]; [exact K | exfalso].
    assert (cost2 c (p + 1) <= cost2 c (n * ONE)) by (apply cost2_mono; [exact Hp | lia]). lia. }
  assert (L1 : p <= b0 + 1 + u).
  { pose proof (up_unit c a b0 Hc Hv ltac:(lia) Hb) as UU.
    pose proof (cost2_super c (b0 + 1) u Hp ltac:(lia) U0) as SS.
    assert (K : cost2 c p < cost2 c (b0 + 1 + u + 1)); [| pose proof (cost2_inv c p (b0 + 1 + u + 1) Hp P0 ltac:(lia) K); lia].
    assert (cost2 c (b0 + 1 + u) < cost2 c (b0 + 1 + u + 1)); [| lia].
    pose proof (cost2_super c (b0 + 1 + u) 1 Hp ltac:(lia) ltac:(lia)) as S1.
    assert (0 < cost2 c 1); [| lia]. destruct Hp as ((_ & _ & Yy & _) & Z1 & Z2 & Z3). unfold is_u64 in Yy.
    unfold cost2. assert (0 < slope_num c * price_den c) by (apply Z.mul_pos_pos; lia).
    assert (0 <= 2 * slope_den c * price_num c * 1 * ONE) by (repeat apply Z.mul_nonneg_nonneg; lia). lia. }
  assert (L2 : b0 <= p + 1 + g).
  { apply (blur_above c X g a b0 (p + 1) Hp HB ltac:(unfold is_u64, u64_max; lia) Hb); [| lia].
    split; [lia |]. destruct HB as (X1 & _). pose proof (cost2_inv c p X Hp P0 X1 ltac:(lia)). lia. }
  assert (N1 : 0 < n) by (unfold ONE in *; lia).
  destruct (Z.le_gt_cases (n * ONE) b0) as [K | K].
  - pose proof (cdivup_spec (b0 - n * ONE) ONE HO) as Dv. fold (end_position b0 n) in Dv.
    pose proof (end_position_nonneg b0 n K) as En. set (e := end_position b0 n) in *. clearbody e.
    apply (sale_succeeds c f n ss a b0 e); try assumption; try (unfold is_u64, u64_max; lia).
    assert (B1 : e * ONE + u + 10 ^ 9 <= p) by (unfold ONE in *; lia).
    pose proof (cost2_super c (e * ONE) u Hp ltac:(unfold ONE in *; lia) U0) as S1.
    pose proof (cost2_super c (e * ONE + u) (10 ^ 9) Hp ltac:(unfold ONE in *; lia) ltac:(lia)) as S2.
    assert (Q0 : 0 <= e * ONE + u + 10 ^ 9) by (unfold ONE in *; lia).
    pose proof (cost2_mono c _ _ Hp (conj Q0 B1)) as S3.
    rewrite cost2_whole in S1.
    assert (S4 : price_den c * ONE <= cost2 c (10 ^ 9)).
    { destruct Hp as ((_ & _ & Yy & _) & Z1 & Z2 & Z3). unfold is_u64 in Yy. unfold cost2.
      assert (0 <= 2 * slope_den c * price_num c * 10 ^ 9 * ONE) by (repeat apply Z.mul_nonneg_nonneg; lia).
      replace (slope_num c * price_den c * 10 ^ 9 * 10 ^ 9) with (slope_num c * (price_den c * ONE)) by (unfold ONE; ring).
      assert (1 * (price_den c * ONE) <= slope_num c * (price_den c * ONE)) by (apply Z.mul_le_mono_nonneg_r; [apply Z.mul_nonneg_nonneg; lia | lia]). lia. }
    rewrite cost2_den_eq in *.
    apply (Z.mul_le_mono_pos_l _ _ ONE HO).
    replace (ONE * (cost_den c * ((a - 1) * ONE))) with (cost_den c * ONE * ONE * a - cost_den c * ONE * ONE) by ring.
    replace (ONE * (cost_num c e * ONE + price_den c)) with (ONE * ONE * cost_num c e + price_den c * ONE) by ring. lia.
  - assert (A0 : 0 < a).
    { assert (0 < cost2 c (n * ONE)).
      { pose proof (cost2_super c 1 (n * ONE - 1) Hp ltac:(lia) ltac:(unfold ONE in *; lia)) as S1.
        replace (1 + (n * ONE - 1)) with (n * ONE) in S1 by ring.
        pose proof (cost2_mono c 0 (n * ONE - 1) Hp ltac:(unfold ONE in *; lia)) as S2. rewrite cost2_0 in S2.
        assert (0 < cost2 c 1); [| lia]. destruct Hp as ((_ & _ & Yy & _) & Z1 & Z2 & Z3). unfold is_u64 in Yy.
        unfold cost2. assert (0 < slope_num c * price_den c) by (apply Z.mul_pos_pos; lia).
        assert (0 <= 2 * slope_den c * price_num c * 1 * ONE) by (repeat apply Z.mul_nonneg_nonneg; lia). lia. }
      destruct (Z.eq_dec a 0) as [-> | Na]; lia. }
    destruct (exit_pays c f n ss a b0 Hc Hv Hf ltac:(unfold is_u64, u64_max; lia) Hs ltac:(unfold is_u64, u64_max; lia) A0 Hb K) as (k & _ & R).
    + unfold ONE in *. lia.
    + eexists. exact R.
Qed.

Lemma holder_sells e signers w pool authority s c user source dest rest n x X g u :
  env_ok e -> reachable e w -> signers_ok e signers ->
  pool_at w pool s -> st_curve s = LinearPrice c -> find_pda e pool = Some (authority, st_bump_seed s) ->
  is_u64 n -> In user signers -> single_signer w user -> single_signer w authority ->
  thawed w (st_token_a s) -> thawed w (st_token_b s) -> wallet w source user (st_token_b_mint s) x ->
  accepts w dest (st_token_a_mint s) (balance w (st_token_a s)) -> dest <> st_token_a s ->
  n <= x -> balance w (st_token_b s) + n <= u64_max ->
  blur c X g -> one_unit c u -> ~ blocked c (balance w (st_token_a s)) ->
  cost2_den c * balance w (st_token_a s) < cost2 c X -> cost2 c (n * ONE) <= cost2_den c * balance w (st_token_a s) ->
  g + u + 2 * 10 ^ 9 <= (n - 1) * ONE ->
  exists w', exec e signers w (Swap (pool :: authority :: user :: source :: st_token_b s :: st_token_a s :: dest
    :: st_pool_mint s :: st_pool_fee_account s :: TOKEN_PROGRAM_ID :: rest) n 0) = Ok w'.
Proof.
  intros He R Sg Hp Hl Hpda Un Hus Su Sa T1 T2 Hw Hacc Nd Lx Lr HB HU Nb HX Hcov Hm.
  pose proof (reachable_inv _ _ He R) as I. pose proof (linear_valid _ _ _ _ _ (proj2 I _ _ Hp) Hl) as (Hc & Hv).
  assert (U : forall v, is_u64 (balance w v)) by (intros v; apply balance_u64; apply I).
  assert (Ne : st_token_b s <> st_token_a s).
  { intros Eq. destruct (proj2 I _ _ Hp) as (au & _ & _ & (t & Ht & _ & Mt & _) & (t' & Ht' & _ & Mt' & _) & Nm & _).
    rewrite Eq in Ht'. destruct Ht as (_ & D1), Ht' as (_ & D2). rewrite D1 in D2. injection D2 as <-. congruence. }
  assert (M1 : vault_mint_of s (st_token_a s) = st_token_a_mint s) by (unfold vault_mint_of; rewrite Z.eqb_refl; reflexivity).
  apply Z.eqb_neq in Ne.
  assert (M2 : vault_mint_of s (st_token_b s) = st_token_b_mint s) by (unfold vault_mint_of; rewrite Ne; reflexivity).
  destruct (sale_accepted c linear_fees X g u n (balance w (st_token_b s)) _ Hc Hv linear_feeless HB HU Un (U _) (U _) Nb HX Hcov Hm) as (r & C).
  apply (feeless_swap _ _ _ _ _ _ _ linear_feeless Un) in C. destruct C as (Q & _ & _ & Pb & _). cbn [swap_without_fees] in Q.
  pose proof (linear_swap_bounds _ _ _ _ _ _ _ Hc Un (U _) (U _) Q) as B.
  apply (linear_swap_live e signers w pool authority s c user source (st_token_b s) (st_token_a s) dest rest n 0 x); try assumption.
  - unfold is_u64, u64_max. lia.
  - right. split; reflexivity.
  - rewrite M2. exact Hw.
  - split; [exact Nd |]. rewrite Ne. exists (source_amount_swapped r), (destination_amount_swapped r). split; [exact Q |].
    split; [lia |]. split; [lia |]. split; [lia |]. rewrite M1. exact (accepts_less _ _ _ _ _ Pb Hacc).
Qed.

(** ** Purchases *)
Lemma offer_accepted c f X g s a dest x n : linear_wf c -> linear_validate c = Ok tt -> feeless f ->
  blur c X g -> is_u64 s -> is_u64 a -> is_u64 dest -> is_u64 n -> ~ blocked c a -> 0 < n -> 2 * cost_den c <= cost_num c dest ->
  0 <= x -> x + n * ONE + g <= X -> cost2_den c * a <= cost2 c x -> cost2 c (x + n * ONE + g) <= cost2_den c * (a + s) ->
  exists r, curve_swap (LinearPrice c) s a dest AtoB f = Val r /\
    (destination_amount_swapped r = dest \/ n <= destination_amount_swapped r).
Proof.
  intros Hc Hv Hf HB Hs Ha Hd Hn Nb N0 Hcost X0 HX P1 P2. pose proof (validated_pos c Hc Hv) as Hp. pose proof ONE_pos as HO.
  pose proof (cost2_den_pos c Hp) as HD.
  assert (G0 : 0 <= g).
  { destruct HB as (X1 & HB). destruct (Z.le_gt_cases 0 g) as [K | K]; [exact K | exfalso]. pose proof Hp as ((_ & _ & Y & _) & Q1 & Q2 & Q3).
    unfold is_u64 in Y. assert (0 <= price_num c * slope_den c * 10 ^ 18) by (repeat apply Z.mul_nonneg_nonneg; lia).
    assert (0 <= slope_num c * price_den c * X) by (repeat apply Z.mul_nonneg_nonneg; lia).
    assert (0 < slope_num c * price_den c) by (apply Z.mul_pos_pos; lia).
    assert (slope_num c * price_den c * g <= 0) by (apply Z.mul_nonneg_nonpos; lia).
    assert (0 < 1414213566 * slope_den c * price_den c) by (repeat apply Z.mul_pos_pos; lia). lia. }
  assert (Ha' := Ha). assert (Hs' := Hs). assert (Hd' := Hd). unfold is_u64, u64_max in Ha', Hs', Hd'.
  assert (E0 : exists b0, b_up c a = Val b0).
  { unfold b_up. destruct (b_value_with_amt_a_locked c (a * ONE) true) as [b | |] eqn:E.
    - exists b. reflexivity.
    - exfalso. revert E. apply b_value_up_total; [exact Hp | lia].
    - exfalso. apply Nb. apply (b_up_panic c a Hp ltac:(lia)). exact E. }
  destruct E0 as (b0 & Hb). destruct (b_value_down_total c (a + s) Hp ltac:(lia)) as (b1 & Hb1).
  pose proof (b_up_bounds c a b0 Hp ltac:(lia) Hb) as BB.
  assert (Un : is_u64 (n - 1)) by (unfold is_u64 in *; lia).
  assert (Lb : b0 + n * ONE <= b1).
  { destruct (Z.le_gt_cases (b0 + n * ONE) b1) as [K | K]; [exact K | exfalso].
    pose proof (position_above c a b0 x Hp Ha Hb X0 ltac:(unfold cost2_den in P1; lia)) as KK.
    assert (Q : cost2_den c * (a + s) < cost2 c (x + n * ONE + g)); [| lia].
    eapply (blur_below c X g (a + s) b1 _ b0 x (n - 1) Hp HB ltac:(lia) Hb1); [| exact X0 | exact Un | ring | exact KK | lia].
    split; [| exact HX]. assert (0 <= n * ONE) by (apply Z.mul_nonneg_nonneg; lia). lia. }
  assert (N1 : ONE <= n * ONE) by (unfold ONE; lia).
  assert (D0 : 0 < dest).
  { destruct (Z.eq_dec dest 0) as [-> | Nd]; [exfalso | lia]. pose proof (cden_pos c Hp) as HG. unfold cost_num in Hcost. lia. }
  assert (S0 : 0 < s).
  { destruct (Z.eq_dec s 0) as [-> | Ns]; [exfalso | lia].
    assert (K : cost2 c x < cost2 c (x + n * ONE + g)); [| replace (a + 0) with a in P2 by ring; lia].
    pose proof (cost2_super c x (n * ONE + g) Hp X0 ltac:(lia)) as S1. rewrite Z.add_assoc in S1.
    pose proof (cost2_mono c 1 (n * ONE + g) Hp ltac:(lia)) as S2.
    assert (0 < cost2 c 1); [| lia]. destruct Hp as ((_ & _ & Yy & _) & Z1 & Z2 & Z3). unfold is_u64 in Yy.
    unfold cost2. assert (0 < slope_num c * price_den c) by (apply Z.mul_pos_pos; lia).
    assert (0 <= 2 * slope_den c * price_num c * 1 * ONE) by (repeat apply Z.mul_nonneg_nonneg; lia). lia. }
  destruct (buy_any c f s a dest b0 b1 Hc Hv Hf Hs Ha Hd S0 D0 Hb Hb1) as (r & C); [| lia |].
  - pose proof (up_unit c a b0 Hc Hv ltac:(lia) Hb) as H1.
    pose proof (cost2_pred c dest Hp D0) as H2. assert (HO2 : ONE <= dest * ONE) by (unfold ONE; lia).
    pose proof (cost2_super c (b0 + 1) (dest * ONE - 1) Hp ltac:(lia) ltac:(lia)) as H3.
    replace (b0 + 1 + (dest * ONE - 1)) with (b0 + dest * ONE) in H3 by ring.
    fold (cost2_den c). assert (Hq : cost2_den c * 2 <= cost_num c dest * ONE * ONE).
    { unfold cost2_den. replace (cost_den c * ONE * ONE * 2) with (2 * cost_den c * (ONE * ONE)) by ring.
      replace (cost_num c dest * ONE * ONE) with (cost_num c dest * (ONE * ONE)) by ring.
      apply Z.mul_le_mono_nonneg_r; [unfold ONE; lia | exact Hcost]. }
    assert (H4 : 100 * (cost_den c * ONE) <= cost2_den c).
    { unfold cost2_den. pose proof (cden_pos c Hp) as HG. rewrite (Z.mul_comm 100). apply Z.mul_le_mono_nonneg_l; [lia | unfold ONE; lia]. }
    replace (4 * cost_den c * ONE) with (4 * (cost_den c * ONE)) by ring. lia.
  - exists r. split; [exact C |].
    destruct (buys_only c f s a dest b0 b1 r Hc Hf Hs Ha Hd Hb Hb1 C) as [(_ & E) | (E & _)]; [right | left; exact E].
    rewrite E. apply Z.div_le_lower_bound; lia.
Qed.

Lemma buyer_buys e signers w pool authority s c user source dest rest m x n y X g :
  env_ok e -> reachable e w -> signers_ok e signers ->
  pool_at w pool s -> st_curve s = LinearPrice c -> find_pda e pool = Some (authority, st_bump_seed s) ->
  is_u64 m -> In user signers -> single_signer w user -> single_signer w authority ->
  thawed w (st_token_a s) -> thawed w (st_token_b s) -> wallet w source user (st_token_a_mint s) x ->
  accepts w dest (st_token_b_mint s) (balance w (st_token_b s)) -> dest <> st_token_b s ->
  m <= x -> balance w (st_token_a s) + m <= u64_max ->
  blur c X g -> ~ blocked c (balance w (st_token_a s)) -> is_u64 n -> 0 < n <= balance w (st_token_b s) ->
  2 * cost_den c <= cost_num c (balance w (st_token_b s)) -> 0 <= y -> y + n * ONE + g <= X ->
  cost2_den c * balance w (st_token_a s) <= cost2 c y ->
  cost2 c (y + n * ONE + g) <= cost2_den c * (balance w (st_token_a s) + m) ->
  exists w', exec e signers w (Swap (pool :: authority :: user :: source :: st_token_a s :: st_token_b s :: dest
    :: st_pool_mint s :: st_pool_fee_account s :: TOKEN_PROGRAM_ID :: rest) m n) = Ok w'.
Proof.
  intros He R Sg Hp Hl Hpda Um Hus Su Sa T1 T2 Hw Hacc Nd Lx Lr HB Nb Un Ln Hcost Y0 YX HY1 HY2.
  pose proof (reachable_inv _ _ He R) as I. pose proof (linear_valid _ _ _ _ _ (proj2 I _ _ Hp) Hl) as (Hc & Hv).
  assert (U : forall v, is_u64 (balance w v)) by (intros v; apply balance_u64; apply I).
  assert (Ne : st_token_b s <> st_token_a s).
  { intros Eq. destruct (proj2 I _ _ Hp) as (au & _ & _ & (t & Ht & _ & Mt & _) & (t' & Ht' & _ & Mt' & _) & Nm & _).
    rewrite Eq in Ht'. destruct Ht as (_ & D1), Ht' as (_ & D2). rewrite D1 in D2. injection D2 as <-. congruence. }
  assert (M1 : vault_mint_of s (st_token_a s) = st_token_a_mint s) by (unfold vault_mint_of; rewrite Z.eqb_refl; reflexivity).
  apply Z.eqb_neq in Ne.
  assert (M2 : vault_mint_of s (st_token_b s) = st_token_b_mint s) by (unfold vault_mint_of; rewrite Ne; reflexivity).
  destruct (offer_accepted c linear_fees X g m _ _ y n Hc Hv linear_feeless HB Um (U _) (U _) Un Nb (proj1 Ln) Hcost Y0 YX HY1 HY2) as (r & C & Le).
  apply (feeless_swap _ _ _ _ _ _ _ linear_feeless Um) in C. destruct C as (Q & _ & _ & Pb & _). cbn [swap_without_fees] in Q.
  pose proof (linear_swap_bounds _ _ _ _ _ _ _ Hc Um (U _) (U _) Q) as B.
  apply (linear_swap_live e signers w pool authority s c user source (st_token_a s) (st_token_b s) dest rest m n x); try assumption.
  - left. split; reflexivity.
  - rewrite M1. exact Hw.
  - split; [exact Nd |]. rewrite Z.eqb_refl. exists (source_amount_swapped r), (destination_amount_swapped r). split; [exact Q |].
    split; [destruct Le; lia |]. split; [lia |]. split; [lia |]. rewrite M2. exact (accepts_less _ _ _ _ _ Pb Hacc).
Qed.
