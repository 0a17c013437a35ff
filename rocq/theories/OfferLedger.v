(** Larger offers: sales on the curve, purchases and sales on the ledger (C103, C125). *)
From Verif Require Import Ints Tactics DfsPrecise Fees LinearCurve SwapCurve Codec Token Processor Api History
  Spec LedgerSpec CallSpec LiveSpec DfsFacts LinearFacts SwapFacts LinearProps LinearRound RedeemFacts LinearBacked OfferFacts
  EffectFacts VaultFacts HistoryFacts LedgerLinear LedgerTrips LiveFacts.

(** ** Sales on the curve *)
Lemma sale_more c f n n' ss a r : linear_wf c -> feeless f -> is_u64 n -> is_u64 n' -> is_u64 ss -> is_u64 a -> n <= n' ->
  curve_swap (LinearPrice c) n ss a BtoA f = Val r ->
  exists r', curve_swap (LinearPrice c) n' ss a BtoA f = Val r' /\
    destination_amount_swapped r <= destination_amount_swapped r'.
Proof.
  intros Hc Hf Hn Hn' Hss Ha Hle H.
  assert (E : exists r', curve_swap (LinearPrice c) n' ss a BtoA f = Val r').
  2:{ destruct E as (r' & E). exists r'. split; [exact E |]. exact (sell_mono c f a ss n n' r r' Hc Hf Ha Hss Hn Hn' Hle H E). }
  apply feeless_swap in H; try assumption. destruct H as (H & _ & _ & HD & _).
  cbn [swap_without_fees] in H. apply linear_swap_b_to_a in H; try assumption.
  destruct H as (Hp & S0 & D0 & b0 & Hb0 & H).
  set (src := source_amount_swapped r) in *. set (dst := destination_amount_swapped r) in *. clearbody src dst.
  destruct (Z.le_gt_cases (n' * ONE) b0) as [G | G].
  - destruct H as [(X & _) | (Hn0 & E & HA & HB & HC & E2)]; [unfold ONE in *; lia |].
    pose proof (end_position_mono b0 n n' Hle) as M. pose proof (end_position_nonneg b0 n' G) as N. pose proof ONE_pos as O.
    assert (M1 : end_position b0 n' * ONE <= end_position b0 n * ONE) by (apply Z.mul_le_mono_nonneg_r; lia).
    assert (N1 : 0 <= end_position b0 n' * ONE) by (apply Z.mul_nonneg_nonneg; lia).
    pose proof (area_mono c _ _ Hp (conj N1 M1)) as AM.
    assert (B : 0 <= area c (end_position b0 n' * ONE)) by (apply area_nonneg; assumption).
    set (x := end_position b0 n' * ONE) in *. set (y := end_position b0 n * ONE) in *.
    assert (HC' : slope_num c * x * x < 2 ^ 252).
    { apply Z.le_lt_trans with (2 := HC). destruct Hc as (U & _). unfold is_u64 in U.
      assert (Q1 : 0 <= slope_num c * x) by (apply Z.mul_nonneg_nonneg; lia).
      assert (Q2 : slope_num c * x <= slope_num c * y) by (apply Z.mul_le_mono_nonneg_l; lia).
      apply Z.mul_le_mono_nonneg; lia. }
    assert (D : 0 < (a * ONE - area c x) / ONE <= a).
    { assert (dst <= (a * ONE - area c x) / ONE) by (rewrite E2; apply Z.div_le_mono; lia).
      split; [lia |]. apply Z.div_le_upper_bound; lia. }
    eexists. apply (quote_is_swap c n' ss a f n' ((a * ONE - area c x) / ONE)); try assumption.
    + apply swap_b_to_a_val; try assumption. exists b0. split; [exact Hb0 |]. right.
      split; [exact G |]. split; [reflexivity |]. split; [fold x; lia |]. split; [fold x; lia |]. split; [exact HC' | reflexivity].
    + lia.
  - pose proof (div_bounds (2 * b0 + ONE) (2 * ONE) ltac:(unfold ONE; lia)) as D.
    set (k := (2 * b0 + ONE) / (2 * ONE)) in *. clearbody k.
    assert (A0 : 0 < a) by lia.
    assert (Hk : 0 < k <= n').
    { destruct H as [(X & Y & _) | (X & -> & _)]; unfold ONE in *; lia. }
    eexists. apply (quote_is_swap c n' ss a f k a); try assumption; [| lia].
    apply swap_b_to_a_val; try assumption. exists b0. split; [exact Hb0 |]. left.
    split; [lia |]. split; [lia | reflexivity].
Qed.

Lemma smallest_sale c f ss a : linear_wf c -> feeless f -> is_u64 ss -> is_u64 a ->
  exists t, 0 < t <= 2 ^ 64 /\ forall n, is_u64 n ->
    ((exists r, curve_swap (LinearPrice c) n ss a BtoA f = Val r) <-> t <= n).
Proof.
  intros Hc Hf Hss Ha.
  set (Q := fun n => ~ exists r, curve_swap (LinearPrice c) n ss a BtoA f = Val r).
  assert (Hdec : forall s, Q s \/ ~ Q s).
  { intros s. unfold Q. destruct (curve_swap (LinearPrice c) s ss a BtoA f) as [r | |];
      [right; intros X; apply X; eauto | left; intros [r X]; discriminate | left; intros [r X]; discriminate]. }
  assert (Hok : forall s, ~ Q s -> exists r, curve_swap (LinearPrice c) s ss a BtoA f = Val r).
  { intros s. unfold Q. destruct (curve_swap (LinearPrice c) s ss a BtoA f) as [r | |]; [eauto | |];
      intros X; exfalso; apply X; intros [r Y]; discriminate. }
  assert (More : forall s s' r, is_u64 s -> is_u64 s' -> s <= s' -> curve_swap (LinearPrice c) s ss a BtoA f = Val r ->
    exists r', curve_swap (LinearPrice c) s' ss a BtoA f = Val r').
  { intros s s' r U U' L H. destruct (sale_more c f s s' ss a r Hc Hf U U' Hss Ha L H) as (r' & E & _). eauto. }
  assert (H0 : Q 0).
  { intros [r H]. assert (U : is_u64 0) by (unfold is_u64, u64_max; lia).
    apply feeless_swap in H; try assumption. destruct H as (H & _). cbn [swap_without_fees] in H.
    pose proof (linear_swap_bounds _ _ _ _ _ _ _ Hc U Hss Ha H). lia. }
  destruct (Hdec u64_max) as [Hn | Hy].
  - exists (2 ^ 64). split; [lia |]. intros s Hs. assert (Hs' := Hs). unfold is_u64, u64_max in Hs'. split; [| lia].
    intros [r H]. exfalso. apply Hn. apply (More s u64_max r); try assumption; unfold is_u64, u64_max; lia.
  - destruct (last_below Q u64_max Hdec ltac:(unfold u64_max; lia) H0 Hy) as (x & Hx & Hq & Hp).
    exists (x + 1). split; [unfold u64_max in *; lia |]. intros s Hs. split.
    + intros [r H]. destruct (Z.le_gt_cases (x + 1) s) as [| G]; [assumption | exfalso]. apply Hq.
      apply (More s x r); try assumption; [unfold is_u64 in *; lia | lia].
    + intros Hle. destruct (Hok _ Hp) as [r H]. apply (More (x + 1) s r); try assumption. unfold is_u64 in *. lia.
Qed.

(** ** On the ledger *)
Lemma accepts_less w k mint x y : x <= y -> accepts w k mint y -> accepts w k mint x.
Proof. intros L (t & T & M & F & R). exists t. repeat split; try assumption; [apply T | apply T | lia]. Qed.

Lemma more_ledger e signers w pool authority s c user source ssrc sdst dest rest n n' mout x w1 :
  env_ok e -> reachable e w -> signers_ok e signers ->
  pool_at w pool s -> st_curve s = LinearPrice c -> find_pda e pool = Some (authority, st_bump_seed s) ->
  is_u64 n -> is_u64 n' -> is_u64 mout -> In user signers -> single_signer w user -> single_signer w authority ->
  (ssrc = st_token_a s /\ sdst = st_token_b s \/ ssrc = st_token_b s /\ sdst = st_token_a s) ->
  thawed w ssrc -> thawed w sdst -> wallet w source user (vault_mint_of s ssrc) x ->
  accepts w dest (vault_mint_of s sdst) (balance w sdst) -> n <= n' -> n' <= x -> balance w ssrc + n' <= u64_max ->
  let d := if ssrc =? st_token_a s then AtoB else BtoA in
  (forall r, curve_swap (LinearPrice c) n (balance w ssrc) (balance w sdst) d linear_fees = Val r ->
     exists r', curve_swap (LinearPrice c) n' (balance w ssrc) (balance w sdst) d linear_fees = Val r' /\
       destination_amount_swapped r <= destination_amount_swapped r') ->
  let accounts := pool :: authority :: user :: source :: ssrc :: sdst :: dest
                    :: st_pool_mint s :: st_pool_fee_account s :: TOKEN_PROGRAM_ID :: rest in
  exec e signers w (Swap accounts n mout) = Ok w1 ->
  exists w2, exec e signers w (Swap accounts n' mout) = Ok w2 /\ balance w2 sdst <= balance w1 sdst.
Proof.
  intros He R Sg Hp Hl Hpda Un Un' Um Hus Su Sa Hside T1 T2 Hw Hacc Ln Lx Lr d More accounts X1.
  pose proof (reachable_inv _ _ He R) as I. pose proof (linear_config _ _ _ _ _ (proj2 I _ _ Hp) Hl) as (Hf & Hpos).
  assert (U1 : is_u64 (balance w ssrc)) by (apply balance_u64; apply I).
  assert (U2 : is_u64 (balance w sdst)) by (apply balance_u64; apply I).
  destruct (proj1 (linear_swap_live e signers w pool authority s c user source ssrc sdst dest rest n mout x
    He R Sg Hp Hl Hpda Un Um Hus Su Sa Hside T1 T2 Hw) (ex_intro _ w1 X1)) as (Nd & taken & paid & Q & (Mo & Pb) & _ & _ & _).
  fold d in Q.
  pose proof (linear_swap_bounds _ _ _ _ _ _ _ (proj1 Hpos) Un U1 U2 Q) as B.
  set (r := mk_swap_result (balance w ssrc + taken) (balance w sdst - paid) taken paid 0 0).
  assert (C : curve_swap (LinearPrice c) n (balance w ssrc) (balance w sdst) d linear_fees = Val r).
  { apply feeless_swap; [exact linear_feeless | exact Un |].
    unfold r. cbn [swap_without_fees source_amount_swapped destination_amount_swapped new_swap_source_amount
         new_swap_destination_amount trade_fee owner_fee].
    split; [exact Q |]. clear - B Un U1 U2 Pb. unfold is_u64, u64_max, u128_max in *. repeat split; lia. }
  destruct (More r C) as (r' & C' & Le). unfold r in Le. cbn [destination_amount_swapped] in Le.
  assert (C2 := C'). apply (feeless_swap _ _ _ _ _ _ _ linear_feeless Un') in C2. destruct C2 as (Q' & _ & _ & Pb' & _ & _ & _).
  cbn [swap_without_fees] in Q'. pose proof (linear_swap_bounds _ _ _ _ _ _ _ (proj1 Hpos) Un' U1 U2 Q') as B'.
  destruct (proj2 (linear_swap_live e signers w pool authority s c user source ssrc sdst dest rest n' mout x
    He R Sg Hp Hl Hpda Un' Um Hus Su Sa Hside T1 T2 Hw)) as (w2 & X2).
  { split; [exact Nd |]. exists (source_amount_swapped r'), (destination_amount_swapped r'). split; [exact Q' |].
    split; [lia |]. split; [lia |]. split; [lia |]. exact (accepts_less _ _ _ _ _ Pb' Hacc). }
  exists w2. split; [exact X2 |].
  assert (V : forall m v res, exec e signers w (Swap accounts m mout) = Ok v ->
    curve_swap (LinearPrice c) m (balance w ssrc) (balance w sdst) d linear_fees = Val res ->
    balance v sdst = new_swap_destination_amount res).
  { intros m v res E Cm. pose proof (swap_vaults_at _ _ _ _ _ _ _ _ I E Hp) as S. cbv zeta in S.
    change (nth 4 accounts 0) with ssrc in S. fold d in S. rewrite Hl, Hf in S.
    destruct S as (r0 & q0 & _ & C0 & _ & _ & Va & Vb & _).
    destruct Hside as [(E1 & E2) | (E1 & E2)]; subst ssrc sdst; unfold d in *.
    - rewrite Z.eqb_refl in *. rewrite Cm in C0. injection C0 as <-. exact Vb.
    - destruct (Z.eqb_spec (st_token_b s) (st_token_a s)) as [Eq | Ne].
      + exfalso. destruct (proj2 I _ _ Hp) as (au & _ & _ & (t & Ht & _ & Mt & _) & (t' & Ht' & _ & Mt' & _) & Nm & _).
        rewrite Eq in Ht'. destruct Ht as (_ & D1), Ht' as (_ & D2). rewrite D1 in D2. injection D2 as <-. congruence.
      + rewrite Cm in C0. injection C0 as <-. exact Va. }
  rewrite (V n w1 r X1 C), (V n' w2 r' X2 C').
  apply (feeless_swap _ _ _ _ _ _ _ linear_feeless Un') in C'. destruct C' as (_ & _ & _ & _ & _ & N' & _).
  rewrite N'. unfold r. cbn [new_swap_destination_amount]. lia.
Qed.

Lemma buy_more_ledger e signers w pool authority s c user source dest rest n n' mout x w1 :
  env_ok e -> reachable e w -> signers_ok e signers ->
  pool_at w pool s -> st_curve s = LinearPrice c -> find_pda e pool = Some (authority, st_bump_seed s) ->
  is_u64 n -> is_u64 n' -> is_u64 mout -> In user signers -> single_signer w user -> single_signer w authority ->
  thawed w (st_token_a s) -> thawed w (st_token_b s) -> wallet w source user (st_token_a_mint s) x ->
  accepts w dest (st_token_b_mint s) (balance w (st_token_b s)) ->
  n <= n' -> n' <= x -> balance w (st_token_a s) + n' <= u64_max ->
  2 * cost_den c <= cost_num c (balance w (st_token_b s)) ->
  let accounts := pool :: authority :: user :: source :: st_token_a s :: st_token_b s :: dest
                    :: st_pool_mint s :: st_pool_fee_account s :: TOKEN_PROGRAM_ID :: rest in
  exec e signers w (Swap accounts n mout) = Ok w1 ->
  exists w2, exec e signers w (Swap accounts n' mout) = Ok w2 /\ balance w2 (st_token_b s) <= balance w1 (st_token_b s).
Proof.
  intros He R Sg Hp Hl Hpda Un Un' Um Hus Su Sa T1 T2 Hw Hacc Ln Lx Lr Hcost accounts X1.
  pose proof (reachable_inv _ _ He R) as I. pose proof (linear_valid _ _ _ _ _ (proj2 I _ _ Hp) Hl) as (Hc & Hv).
  assert (U : forall v, is_u64 (balance w v)) by (intros v; apply balance_u64; apply I).
  assert (M1 : vault_mint_of s (st_token_a s) = st_token_a_mint s) by (unfold vault_mint_of; rewrite Z.eqb_refl; reflexivity).
  assert (M2 : vault_mint_of s (st_token_b s) = st_token_b_mint s).
  { unfold vault_mint_of. destruct (Z.eqb_spec (st_token_b s) (st_token_a s)) as [Eq | Ne]; [| reflexivity].
    destruct (proj2 I _ _ Hp) as (au & _ & _ & (t & Ht & _ & Mt & _) & (t' & Ht' & _ & Mt' & _) & Nm & _).
    rewrite Eq in Ht'. destruct Ht as (_ & D1), Ht' as (_ & D2). rewrite D1 in D2. injection D2 as <-. congruence. }
  apply (more_ledger e signers w pool authority s c user source (st_token_a s) (st_token_b s) dest rest n n' mout x w1); try assumption.
  - left. split; reflexivity.
  - rewrite M1. exact Hw.
  - rewrite M2. exact Hacc.
  - rewrite Z.eqb_refl. intros r C.
    destruct (accept_more c linear_fees n n' _ _ r Hc Hv linear_feeless Un Un' (U _) (U _) Ln Hcost C) as (r' & C').
    exists r'. split; [exact C' |]. exact (proj1 (buy_mono c linear_fees _ _ n n' r r' Hc linear_feeless (U _) (U _) Un Un' Ln C C')).
Qed.

Lemma sell_more_ledger e signers w pool authority s c user source dest rest n n' mout x w1 :
  env_ok e -> reachable e w -> signers_ok e signers ->
  pool_at w pool s -> st_curve s = LinearPrice c -> find_pda e pool = Some (authority, st_bump_seed s) ->
  is_u64 n -> is_u64 n' -> is_u64 mout -> In user signers -> single_signer w user -> single_signer w authority ->
  thawed w (st_token_a s) -> thawed w (st_token_b s) -> wallet w source user (st_token_b_mint s) x ->
  accepts w dest (st_token_a_mint s) (balance w (st_token_a s)) ->
  n <= n' -> n' <= x -> balance w (st_token_b s) + n' <= u64_max ->
  let accounts := pool :: authority :: user :: source :: st_token_b s :: st_token_a s :: dest
                    :: st_pool_mint s :: st_pool_fee_account s :: TOKEN_PROGRAM_ID :: rest in
  exec e signers w (Swap accounts n mout) = Ok w1 ->
  exists w2, exec e signers w (Swap accounts n' mout) = Ok w2 /\ balance w2 (st_token_a s) <= balance w1 (st_token_a s).
Proof.
  intros He R Sg Hp Hl Hpda Un Un' Um Hus Su Sa T1 T2 Hw Hacc Ln Lx Lr accounts X1.
  pose proof (reachable_inv _ _ He R) as I. pose proof (linear_valid _ _ _ _ _ (proj2 I _ _ Hp) Hl) as (Hc & Hv).
  assert (U : forall v, is_u64 (balance w v)) by (intros v; apply balance_u64; apply I).
  assert (Ne : st_token_b s <> st_token_a s).
  { intros Eq. destruct (proj2 I _ _ Hp) as (au & _ & _ & (t & Ht & _ & Mt & _) & (t' & Ht' & _ & Mt' & _) & Nm & _).
    rewrite Eq in Ht'. destruct Ht as (_ & D1), Ht' as (_ & D2). rewrite D1 in D2. injection D2 as <-. congruence. }
  assert (M1 : vault_mint_of s (st_token_a s) = st_token_a_mint s) by (unfold vault_mint_of; rewrite Z.eqb_refl; reflexivity).
  apply Z.eqb_neq in Ne.
  assert (M2 : vault_mint_of s (st_token_b s) = st_token_b_mint s) by (unfold vault_mint_of; rewrite Ne; reflexivity).
  apply (more_ledger e signers w pool authority s c user source (st_token_b s) (st_token_a s) dest rest n n' mout x w1); try assumption.
  - right. split; reflexivity.
  - rewrite M2. exact Hw.
  - rewrite M1. exact Hacc.
  - rewrite Ne. intros r C. exact (sale_more c linear_fees n n' _ _ r Hc linear_feeless Un Un' (U _) (U _) Ln C).
Qed.

(** The pool of C78_can_sell_refuted after the purchase of 786 tokens. *)
Lemma hoard_sales ss n : is_u64 ss -> is_u64 n ->
  (exists r, curve_swap (LinearPrice (mk_linear 1 1000000 1000000 1)) n ss 1000000000 BtoA no_fees = Val r) <-> 148 <= n.
Proof.
  intros Us Un. set (c := mk_linear 1 1000000 1000000 1).
  assert (Hc : linear_wf c) by (vm_compute; intuition congruence).
  assert (Hf : feeless no_fees) by (split; reflexivity).
  assert (Ha : is_u64 1000000000) by (unfold is_u64, u64_max; lia).
  assert (U : is_u64 147 /\ is_u64 148) by (unfold is_u64, u64_max; lia). destruct U as (U1 & U2).
  split.
  - intros (r & H). destruct (Z.le_gt_cases 148 n) as [L | L]; [exact L | exfalso].
    destruct (sale_more c no_fees n 147 ss _ r Hc Hf Un U1 Us Ha ltac:(lia) H) as (r' & E & _).
    apply feeless_swap in E; try assumption. destruct E as (E & _). cbn [swap_without_fees] in E. clear - E.
    assert (N : linear_swap c 147 ss 1000000000 BtoA = Non) by (vm_compute; reflexivity). rewrite N in E. discriminate E.
  - intros L. assert (Q : swap_b_to_a c 148 ss 1000000000 = Val (148, 999999)) by (vm_compute; reflexivity).
    apply (quote_is_swap c 148 ss 1000000000 no_fees) in Q; try assumption; try lia.
    destruct (sale_more c no_fees 148 n ss _ _ Hc Hf U2 Un Us Ha L Q) as (r' & E & _). exists r'. exact E.
Qed.
