(** Linear pools that do not trade. *)
From Verif Require Import Ints Tactics DfsPrecise Fees LinearCurve SwapCurve Codec Token Processor Api History
  Spec LedgerSpec TraceSpec BlockSpec DfsFacts TokenFacts LinearFacts SwapFacts LinearExact LinearProps EffectFacts VaultFacts HistoryFacts LedgerLinear
  LedgerExamples HistoryExamples.

(** ** Swaps *)
Lemma blocked_aborts c s ss sd d : linear_wf c -> linear_validate c = Ok tt -> is_u64 s -> is_u64 ss -> is_u64 sd ->
  (linear_swap c s ss sd d = Panic <-> blocked c (side_a d ss sd)).
Proof. intros. apply linear_panic_iff; assumption. Qed.

Lemma blocked_swap c s ss sd d : linear_pos c -> is_u64 s -> is_u64 ss -> is_u64 sd -> blocked c (side_a d ss sd) ->
  linear_swap c s ss sd d = Panic.
Proof.
  intros Hp Hs H1 H2 B. apply linear_swap_panic; try assumption. apply b_up_panic; [exact Hp | | exact B].
  unfold is_u64, u64_max in *. destruct d; cbn [side_a]; lia.
Qed.

Lemma blocked_fails e signers w accounts n m s c w' : env_ok e -> reachable e w -> pool_at w (nth 0 accounts 0) s ->
  st_curve s = LinearPrice c -> blocked c (balance w (st_token_a s)) -> exec e signers w (Swap accounts n m) <> Ok w'.
Proof.
  intros He R Hp Hl B H. pose proof (reachable_inv _ _ He R) as I.
  pose proof (linear_config _ _ _ _ _ (proj2 I _ _ Hp) Hl) as (Hf & Hc).
  destruct (swap_vaults _ _ _ _ _ _ _ _ I H Hp) as (d & r & minted & Ha & Sw & _). cbv zeta in *. rewrite Hl, Hf in Sw.
  apply feeless_swap in Sw; [| exact linear_feeless | exact Ha]. destruct Sw as (Sw & _). cbn [swap_without_fees] in Sw.
  pose proof (balance_u64 w (st_token_a s) (proj1 I)) as Ua. pose proof (balance_u64 w (st_token_b s) (proj1 I)) as Ub.
  rewrite blocked_swap in Sw; [discriminate | exact Hc | exact Ha | | |]; destruct d; cbn [side_a]; assumption.
Qed.

(** ** The ledger *)
Lemma blocked_step e w ev w' k s c : env_ok e -> reachable e w -> step e w ev w' -> pool_at w k s ->
  st_curve s = LinearPrice c -> blocked c (balance w (st_token_a s)) ->
  balance w (st_token_a s) <= balance w' (st_token_a s) /\ balance w (st_token_b s) <= balance w' (st_token_b s).
Proof.
  intros He R S Hp Hl B. pose proof (step_linear _ _ _ _ _ _ _ He (reachable_inv _ _ He R) S Hp Hl) as X.
  destruct (swaps_on k ev) eqn:Q; [| exact X]. exfalso.
  destruct S as [w sg i w' Sg Hpk H | w w' E]; [| discriminate].
  destruct i as [| | accounts ain mout | | | |]; cbn [swaps_on] in Q; try discriminate. apply Z.eqb_eq in Q. subst k.
  exact (blocked_fails _ _ _ _ _ _ _ _ _ He R Hp Hl B H).
Qed.

Lemma blocked_history e w evs w' k s c : env_ok e -> reachable e w -> history e w evs w' -> pool_at w k s ->
  st_curve s = LinearPrice c -> (forall a, balance w (st_token_a s) <= a <= u64_max -> blocked c a) ->
  balance w (st_token_a s) <= balance w' (st_token_a s) /\ balance w (st_token_b s) <= balance w' (st_token_b s).
Proof.
  intros He R H Hp Hl. revert R Hp. induction H as [w | w ev w1 evs w2 S H IH]; intros R Hp B; [lia |].
  pose proof (reachable_inv _ _ He R) as I. pose proof (balance_u64 w (st_token_a s) (proj1 I)) as Ua. unfold is_u64 in Ua.
  pose proof (blocked_step _ _ _ _ _ _ _ He R S Hp Hl (B (balance w (st_token_a s)) ltac:(lia))) as (M1 & M2).
  assert (R1 : reachable e w1) by (eapply reachable_step; eassumption).
  assert (Hp1 : pool_at w1 k s) by exact (step_pool_stays _ _ _ _ _ _ He (proj1 I) S Hp).
  destruct (IH R1 Hp1) as (N1 & N2); [| lia]. intros a Ha. apply B. lia.
Qed.

(** ** How far the blocked amounts reach *)
Lemma disc_grows c a d : linear_pos c -> 0 <= d ->
  2 * slope_num c * d * ONE < slope_den c * (disc c (a + d) - disc c a + 1) /\
  slope_den c * (disc c (a + d) - disc c a - 1) < 2 * slope_num c * d * ONE.
Proof.
  intros (_ & P1 & P2 & P3) Hd. unfold disc. pose proof ONE_pos as HO.
  set (x := _ / (price_den c * price_den c)).
  pose proof (div_bounds (2 * slope_num c * a * ONE) (slope_den c) P2) as B1.
  pose proof (div_bounds (2 * slope_num c * (a + d) * ONE) (slope_den c) P2) as B2.
  set (u := 2 * slope_num c * a * ONE / slope_den c) in *. set (v := 2 * slope_num c * (a + d) * ONE / slope_den c) in *.
  replace (2 * slope_num c * (a + d) * ONE) with (2 * slope_num c * a * ONE + 2 * slope_num c * d * ONE) in B2 by ring.
  clearbody x u v. split; nia.
Qed.

Lemma blocked_width c k a d : linear_pos c -> 0 <= d -> blocked_at c k a -> blocked_at c k (a + d) ->
  2 * slope_num c * d * ONE < slope_den c * (4 ^ k - 1).
Proof.
  intros Hp Hd (K & B1) (_ & B2). destruct (disc_grows c a d Hp Hd) as (G & _). destruct Hp as (_ & _ & P2 & _).
  assert (disc c (a + d) - disc c a + 1 <= 4 ^ k - 1) by lia.
  assert (slope_den c * (disc c (a + d) - disc c a + 1) <= slope_den c * (4 ^ k - 1)) by (apply Z.mul_le_mono_nonneg_l; lia). lia.
Qed.

Lemma above_not_blocked c k a : 1 <= k -> 2 ^ 64 * 4 ^ k <= disc c a <= (2 ^ 64 - 1) * 4 ^ (k + 1) -> ~ blocked c a.
Proof.
  intros K B (j & J & B'). destruct (Z.le_gt_cases j k) as [L | L].
  - assert (4 ^ j <= 4 ^ k) by (apply Z.pow_le_mono_r; lia). lia.
  - assert (4 ^ (k + 1) <= 4 ^ j) by (apply Z.pow_le_mono_r; lia). lia.
Qed.

Lemma blocked_thaws c k a : linear_pos c -> blocked_at c k a ->
  2 * slope_num c * ONE + 2 * slope_den c <= slope_den c * 4 ^ k * (3 * 2 ^ 64 - 5) ->
  ~ blocked c (a + (slope_den c * 4 ^ k / (2 * slope_num c * ONE) + 1)).
Proof.
  intros Hp (K & B) Hs. pose proof ONE_pos as HO. pose proof Hp as (_ & P1 & P2 & _).
  assert (H4 : 0 < 4 ^ k) by (apply Z.pow_pos_nonneg; lia).
  assert (Hm : 0 < 2 * slope_num c * ONE) by (apply Z.mul_pos_pos; lia).
  pose proof (div_bounds (slope_den c * 4 ^ k) (2 * slope_num c * ONE) Hm) as D.
  set (d := slope_den c * 4 ^ k / (2 * slope_num c * ONE)) in *.
  assert (D0 : 0 <= d) by (apply Z.div_pos; [apply Z.mul_nonneg_nonneg; lia | exact Hm]). clearbody d.
  destruct (disc_grows c a (d + 1) Hp ltac:(lia)) as (G1 & G2).
  replace (2 * slope_num c * (d + 1) * ONE) with (2 * slope_num c * ONE * (d + 1)) in * by ring.
  replace (2 * slope_num c * ONE * (d + 1)) with (2 * slope_num c * ONE * d + 2 * slope_num c * ONE) in * by ring.
  set (m := 2 * slope_num c * ONE) in *. set (q := slope_den c) in *. set (f := 4 ^ k) in *.
  set (D1 := disc c (a + (d + 1))) in *. set (D2 := disc c a) in *.
  apply (above_not_blocked c k); [exact K |]. fold D1. rewrite Z.pow_add_r by lia. fold f. change (4 ^ 1) with 4.
  clearbody m q f D1 D2. assert (f <= D1 - D2) by nia.
  assert (q * (D1 - D2 - 1) < q * (f + f * (3 * 2 ^ 64 - 5) - 2)) by nia.
  assert (D1 - D2 - 1 < f + f * (3 * 2 ^ 64 - 5) - 2) by nia. lia.
Qed.

(** If that takes the vault from one blocked range into another, one unit more does not take it into a third. *)
Lemma blocked_twice c k a : linear_pos c -> blocked_at c k a -> blocked c (a + 1) ->
  slope_den c * 4 ^ k * (3 * 2 ^ 64 - 5) < 2 * slope_num c * ONE + 2 * slope_den c -> ~ blocked c (a + 2).
Proof.
  intros Hp (K & B) (j & J & B1) Hs. pose proof Hp as (_ & _ & P2 & _).
  destruct (disc_grows c a 1 Hp ltac:(lia)) as (G1 & G2).
  destruct (disc_grows c (a + 1) 1 Hp ltac:(lia)) as (G3 & G4). replace (a + 1 + 1) with (a + 2) in * by ring.
  assert (H4 : 4 <= 4 ^ k) by (change 4 with (4 ^ 1) at 1; apply Z.pow_le_mono_r; lia).
  replace (2 * slope_num c * 1 * ONE) with (2 * slope_num c * ONE) in * by ring.
  apply (above_not_blocked c j); [exact J |]. rewrite Z.pow_add_r by lia. change (4 ^ 1) with 4.
  set (D0 := disc c a) in *. set (D1 := disc c (a + 1)) in *. set (D2 := disc c (a + 2)) in *.
  set (m := 2 * slope_num c * ONE) in *. set (q := slope_den c) in *.
  assert (Hj : 4 * 4 ^ k <= 4 ^ j).
  { destruct (Z.le_gt_cases j k) as [L | L].
    - exfalso. assert (4 ^ j <= 4 ^ k) by (apply Z.pow_le_mono_r; lia). set (f := 4 ^ k) in *. set (h := 4 ^ j) in *.
      clearbody D0 D1 D2 m q f h.
      assert (q * (f * (3 * 2 ^ 64 - 5)) < q * (D1 - D0 + 3)) by lia.
      assert (f * (3 * 2 ^ 64 - 5) < D1 - D0 + 3) by (apply (Z.mul_lt_mono_pos_l q); lia). lia.
    - change 4 with (4 ^ 1) at 1. rewrite <- Z.pow_add_r by lia. apply Z.pow_le_mono_r; lia. }
  set (f := 4 ^ k) in *. set (h := 4 ^ j) in *. clearbody D0 D1 D2 m q f h.
  assert (X1 : q * (D2 - D1 - 1) < q * (D1 - D0 + 1)) by lia.
  assert (X2 : q * (D1 - D0 - 1) < q * (D2 - D1 + 1)) by lia.
  apply (Z.mul_lt_mono_pos_l q) in X1; [| exact P2]. apply (Z.mul_lt_mono_pos_l q) in X2; [| exact P2]. lia.
Qed.

Lemma blocked_dec c a : blocked c a \/ ~ blocked c a.
Proof.
  set (j := (Z.log2 (disc c a) - 63) / 2).
  assert (U : forall i, blocked_at c i a -> i = j).
  { intros i (I & B). assert (L : Z.log2 (disc c a) = 63 + 2 * i).
    { apply Z.log2_unique; [lia |]. replace (Z.succ (63 + 2 * i)) with (64 + 2 * i) by lia. rewrite !Z.pow_add_r by lia.
      rewrite (Z.pow_mul_r 2 2 i) by lia. change (2 ^ 2) with 4. assert (0 < 4 ^ i) by (apply Z.pow_pos_nonneg; lia). lia. }
    unfold j. rewrite L. replace (63 + 2 * i - 63) with (i * 2) by lia. symmetry. apply Z.div_mul. lia. }
  destruct (Z_le_dec 1 j) as [J | J]; [| right; intros (i & B); rewrite <- (U i B) in J; apply J, B].
  destruct (Z_lt_dec ((2 ^ 64 - 1) * 4 ^ j) (disc c a)) as [L1 | L1];
    [| right; intros (i & B); rewrite <- (U i B) in L1; apply L1, B].
  destruct (Z_lt_dec (disc c a) (2 ^ 64 * 4 ^ j)) as [L2 | L2];
    [| right; intros (i & B); rewrite <- (U i B) in L2; apply L2, B].
  left. exists j. split; [exact J | split; assumption].
Qed.

Lemma blocked_thaws_any c k a : linear_pos c -> blocked_at c k a ->
  let d := slope_den c * 4 ^ k / (2 * slope_num c * ONE) in
  ~ blocked c (a + (d + 1)) \/ d = 0 /\ blocked c (a + 1) /\ ~ blocked c (a + 2).
Proof.
  intros Hp B d.
  destruct (Z.le_gt_cases (2 * slope_num c * ONE + 2 * slope_den c) (slope_den c * 4 ^ k * (3 * 2 ^ 64 - 5))) as [L | L].
  { left. exact (blocked_thaws c k a Hp B L). }
  assert (D0 : d = 0).
  { pose proof Hp as (_ & _ & P2 & _). destruct B as (K & _).
    assert (4 <= 4 ^ k) by (change 4 with (4 ^ 1) at 1; apply Z.pow_le_mono_r; lia).
    apply Z.div_small. set (f := 4 ^ k) in *. set (q := slope_den c) in *. clearbody f q. clear d.
    assert (0 <= q * f) by (apply Z.mul_nonneg_nonneg; lia). assert (q * 4 <= q * f) by (apply Z.mul_le_mono_nonneg_l; lia). lia. }
  rewrite D0. change (0 + 1) with 1. destruct (blocked_dec c (a + 1)) as [Y | N]; [right | left; exact N].
  split; [reflexivity |]. split; [exact Y |]. exact (blocked_twice c k a Hp B Y L).
Qed.

(** Steep enough for one unit to lead from one blocked range into the next. *)
Lemma blocked_next : exists c, linear_wf c /\ linear_validate c = Ok tt /\ blocked c 0 /\ blocked c 1 /\ ~ blocked c 2.
Proof.
  exists (mk_linear 51991254427 469741925 50371910263699 5864062144386).
  assert (W : linear_wf (mk_linear 51991254427 469741925 50371910263699 5864062144386)) by (vm_compute; intuition congruence).
  assert (V : linear_validate (mk_linear 51991254427 469741925 50371910263699 5864062144386) = Ok tt) by (vm_compute; reflexivity).
  assert (B0 : blocked_at (mk_linear 51991254427 469741925 50371910263699 5864062144386) 1 0) by (vm_compute; intuition congruence).
  assert (B1 : blocked (mk_linear 51991254427 469741925 50371910263699 5864062144386) 1) by (exists 2; vm_compute; intuition congruence).
  split; [exact W |]. split; [exact V |]. split; [exists 1; exact B0 |]. split; [exact B1 |].
  apply (blocked_twice _ 1 0 ltac:(split; [exact W | vm_compute; auto]) B0 B1). vm_compute. reflexivity.
Qed.

(** ** Gifts that block a pool *)
Lemma gift_blocks c k a : linear_pos c -> 1 <= k -> disc c a <= (2 ^ 64 - 1) * 4 ^ k ->
  2 * slope_num c * ONE <= slope_den c * (4 ^ k - 3) -> 0 <= gift c k a /\ blocked_at c k (a + gift c k a).
Proof.
  intros Hp K Hd Hs. pose proof ONE_pos as HO. pose proof Hp as (_ & P1 & P2 & _). unfold gift.
  assert (Hm : 0 < 2 * slope_num c * ONE) by (apply Z.mul_pos_pos; lia).
  set (r := (2 ^ 64 - 1) * 4 ^ k - disc c a + 1). assert (Hr : 1 <= r) by (unfold r; lia).
  pose proof (div_bounds (slope_den c * r) (2 * slope_num c * ONE) Hm) as D.
  set (d := slope_den c * r / (2 * slope_num c * ONE)) in *.
  assert (D0 : 0 <= d) by (apply Z.div_pos; [apply Z.mul_nonneg_nonneg; lia | exact Hm]). clearbody d.
  destruct (disc_grows c a (d + 1) Hp ltac:(lia)) as (G1 & G2).
  replace (2 * slope_num c * (d + 1) * ONE) with (2 * slope_num c * ONE * d + 2 * slope_num c * ONE) in * by ring.
  split; [lia |]. split; [exact K |].
  set (m := 2 * slope_num c * ONE) in *. set (q := slope_den c) in *. set (f := 4 ^ k) in *.
  set (D1 := disc c (a + (d + 1))) in *. set (D2 := disc c a) in *.
  clearbody m q f D1 D2. assert (r < D1 - D2 + 1) by nia.
  assert (q * (D1 - D2 - 1) < q * (r + (f - 3))) by nia.
  assert (D1 - D2 - 1 < r + (f - 3)) by nia. unfold r in *. lia.
Qed.

(** Anyone may send tokens to a vault. *)
Definition give (w : world) (giver vault x : Z) : world :=
  upd (upd w giver (set_amount (w giver) (balance w giver - x))) vault (set_amount (w vault) (balance w vault + x)).

Lemma give_external e w giver vault x au mint t : world_wf w -> vault_ok w au vault mint -> is_pda e au ->
  token_at w giver t -> ~ is_pda e (t_owner t) -> 0 <= x <= t_amount t -> balance w vault + x <= u64_max ->
  giver <> vault /\ external_ok e w (give w giver vault x).
Proof.
  intros W (v & Hv & Ov & _ & Nd & Nc) Pa Ht Np Hx Hm.
  assert (Ne : giver <> vault).
  { intros ->. destruct Ht as (_ & E1), Hv as (_ & E2). rewrite E1 in E2. injection E2 as ->. rewrite Ov in Np. contradiction. }
  split; [exact Ne |].
  rewrite (token_balance _ _ _ Hv) in Hm. split; intros k; unfold give;
    rewrite (token_balance _ _ _ Hv), (token_balance _ _ _ Ht); destruct Hv as (O2 & E2), Ht as (O1 & E1).
  - pose proof (W giver) as W1. pose proof (W vault) as W2. unfold account_wf in W1, W2. rewrite E1 in W1. rewrite E2 in W2.
    unfold is_u64, u64_max in *.
    destruct (Z.eq_dec k vault) as [-> | N1].
    { rewrite upd_same. unfold account_wf, set_amount. rewrite E2. cbn [a_data t_amount with_amount t_delegated_amount t_mint].
      unfold is_u64, u64_max. repeat split; try lia; apply W2. }
    rewrite upd_other by exact N1. destruct (Z.eq_dec k giver) as [-> | N2]; [| rewrite upd_other by exact N2; apply W].
    rewrite upd_same. unfold account_wf, set_amount. rewrite E1. cbn [a_data t_amount with_amount t_delegated_amount t_mint].
    unfold is_u64, u64_max. repeat split; try lia; apply W1.
  - destruct (Z.eq_dec k vault) as [-> | N1].
    { rewrite upd_same. unfold external_account_ok, set_amount. rewrite O2, E2. cbn [a_owner a_data].
      split; [discriminate |]. split; [discriminate |]. split; [| discriminate].
      intros t' _ E P D C. injection E as <-. split; [reflexivity |]. exists (t_amount v + x), (t_frozen v). split; [lia |].
      unfold with_amount. rewrite D, C. reflexivity. }
    rewrite upd_other by exact N1. destruct (Z.eq_dec k giver) as [-> | N2]; [| rewrite upd_other by exact N2; apply external_refl].
    rewrite upd_same. unfold external_account_ok, set_amount. rewrite O1, E1. cbn [a_owner a_data].
    split; [discriminate |]. split; [discriminate |]. split; [| discriminate].
    intros t' _ E P. injection E as ->. contradiction.
Qed.

Lemma give_balances w giver vault x t v : token_at w giver t -> token_at w vault v -> giver <> vault ->
  balance (give w giver vault x) giver = t_amount t - x /\ balance (give w giver vault x) vault = t_amount v + x.
Proof.
  intros Ht Hv Ne. unfold give. rewrite (token_balance _ _ _ Hv), (token_balance _ _ _ Ht). destruct Hv as (O2 & E2), Ht as (O1 & E1).
  unfold balance. rewrite upd_same, upd_other by exact Ne. rewrite upd_same. unfold set_amount. rewrite O1, O2, E1, E2. split; reflexivity.
Qed.

Lemma anyone_blocks e w k s c j giver t : env_ok e -> reachable e w -> pool_at w k s -> st_curve s = LinearPrice c -> 1 <= j ->
  disc c (balance w (st_token_a s)) <= (2 ^ 64 - 1) * 4 ^ j -> 2 * slope_num c * ONE <= slope_den c * (4 ^ j - 3) ->
  token_at w giver t -> t_mint t = st_token_a_mint s -> ~ is_pda e (t_owner t) ->
  let x := gift c j (balance w (st_token_a s)) in x <= t_amount t -> balance w (st_token_a s) + x <= u64_max ->
  exists w', step e w External w' /\ balance w' giver = t_amount t - x /\
    balance w' (st_token_a s) = balance w (st_token_a s) + x /\ (forall i, i <> giver -> i <> st_token_a s -> w' i = w i) /\
    blocked c (balance w' (st_token_a s)).
Proof.
  intros He R Hp Hl J Hd Hs Ht Hm Np x Hx Hu. pose proof (reachable_inv _ _ He R) as I.
  pose proof (linear_config _ _ _ _ _ (proj2 I _ _ Hp) Hl) as (_ & Hc).
  destruct (gift_blocks c j _ Hc J Hd Hs) as (X0 & B). fold x in X0, B.
  destruct (proj2 I _ _ Hp) as (au & Hf & _ & Va & _).
  assert (Pa : is_pda e au) by (exists k, (st_bump_seed s); exact (proj1 (proj1 He _ _ _ Hf))).
  destruct (give_external e w giver (st_token_a s) x au _ t (proj1 I) Va Pa Ht Np (conj X0 Hx) Hu) as (Ne & Ex).
  destruct Va as (v & Hv & _). destruct (give_balances w giver _ x t v Ht Hv Ne) as (B1 & B2).
  rewrite <- (token_balance _ _ _ Hv) in B2.
  exists (give w giver (st_token_a s) x). split; [constructor; exact Ex |]. split; [exact B1 |]. split; [exact B2 |]. split.
  - intros i N1 N2. unfold give. rewrite !upd_other by congruence. reflexivity.
  - rewrite B2. exists j. exact B.
Qed.

Lemma anyone_unblocks e w k s c j giver t : env_ok e -> reachable e w -> pool_at w k s -> st_curve s = LinearPrice c ->
  blocked_at c j (balance w (st_token_a s)) ->
  token_at w giver t -> t_mint t = st_token_a_mint s -> ~ is_pda e (t_owner t) ->
  let d := slope_den c * 4 ^ j / (2 * slope_num c * ONE) in
  d + 2 <= t_amount t -> balance w (st_token_a s) + d + 2 <= u64_max ->
  exists w' x, 0 < x <= d + 2 /\ step e w External w' /\ balance w' giver = t_amount t - x /\
    balance w' (st_token_a s) = balance w (st_token_a s) + x /\ (forall i, i <> giver -> i <> st_token_a s -> w' i = w i) /\
    ~ blocked c (balance w' (st_token_a s)).
Proof.
  intros He R Hp Hl HB Ht Hm Np d Hx Hu. pose proof (reachable_inv _ _ He R) as I.
  pose proof (linear_config _ _ _ _ _ (proj2 I _ _ Hp) Hl) as (_ & Hc).
  assert (D0 : 0 <= d).
  { pose proof Hc as (_ & P1 & P2 & _). pose proof ONE_pos. pose proof (Z.pow_nonneg 4 j ltac:(lia)).
    apply Z.div_pos; [apply Z.mul_nonneg_nonneg; lia | apply Z.mul_pos_pos; lia]. }
  assert (X : exists x, 0 < x <= d + 2 /\ ~ blocked c (balance w (st_token_a s) + x)).
  { destruct (blocked_thaws_any c j _ Hc HB) as [B | (E & _ & B)].
    - exists (d + 1). split; [lia | exact B].
    - exists 2. split; [lia | exact B]. }
  destruct X as (x & X0 & B).
  destruct (proj2 I _ _ Hp) as (au & Hf & _ & Va & _).
  assert (Pa : is_pda e au) by (exists k, (st_bump_seed s); exact (proj1 (proj1 He _ _ _ Hf))).
  destruct (give_external e w giver (st_token_a s) x au _ t (proj1 I) Va Pa Ht Np ltac:(lia) ltac:(lia)) as (Ne & Ex).
  destruct Va as (v & Hv & _). destruct (give_balances w giver _ x t v Ht Hv Ne) as (B1 & B2).
  rewrite <- (token_balance _ _ _ Hv) in B2.
  exists (give w giver (st_token_a s) x), x. split; [exact X0 |]. split; [constructor; exact Ex |]. split; [exact B1 |]. split; [exact B2 |]. split.
  - intros i N1 N2. unfold give. rewrite !upd_other by congruence. reflexivity.
  - rewrite B2. exact B.
Qed.

(** ** Pools that never trade *)
Definition dead_curve : linear_curve := mk_linear 1 1000000000000000000 12156182983645710 164747.

Lemma dead_blocked a : is_u64 a -> blocked dead_curve a.
Proof.
  intros Ua. exists 34. split; [lia |]. unfold is_u64, u64_max in Ua. unfold disc, dead_curve.
  cbn [slope_num slope_den price_num price_den]. change ONE with 1000000000000000000.
  replace (2 * 1 * a * 1000000000000000000) with (2 * a * 1000000000000000000) by ring. rewrite Z.div_mul by lia.
  set (x := 12156182983645710 * 12156182983645710 * 1000000000000000000 / (164747 * 164747)). vm_compute in x. subst x.
  change ((2 ^ 64 - 1) * 4 ^ 34) with 5444517870735015415118845813728938557440. 
  change (2 ^ 64 * 4 ^ 34) with 5444517870735015415413993718908291383296. lia.
Qed.

Definition dead_init : instr :=
  InitLinearPrice [100; auth 100; 101; 102; 203; 103; 104; TOKEN_PROGRAM_ID] 1 1000000000000000000 12156182983645710 164747.
Definition dead_world : world := run1 [100] ex_w0 dead_init.
Definition dead_pool : swap_state :=
  mk_swap_state true 255 TOKEN_PROGRAM_ID 101 102 203 201 202 103 linear_fees (LinearPrice dead_curve).

Lemma dead_reachable : reachable ex_env dead_world.
Proof.
  apply (reachable_step _ ex_w0 (Instruction [100] dead_init)).
  - exists ex_w0, []. split; [apply ex_genesis | constructor].
  - apply ex_run; [apply ex_signers; lia | unfold dead_init; keys_ok | reflexivity | vm_compute; reflexivity].
Qed.

Lemma history_reachable e w evs w' : history e w evs w' -> reachable e w -> reachable e w'.
Proof. intros H. induction H as [w | w ev w1 evs w2 S _ IH]; intros R; [exact R |]. apply IH. eapply reachable_step; eassumption. Qed.

Lemma dead_forever : exists e w k s c, env_ok e /\ reachable e w /\ pool_at w k s /\ st_curve s = LinearPrice c /\
  linear_validate c = Ok tt /\ balance w (st_token_b s) = 5000 /\
  forall evs w', history e w evs w' -> 5000 <= balance w' (st_token_b s) /\
    forall signers accounts n m w2, nth 0 accounts 0 = k -> exec e signers w' (Swap accounts n m) <> Ok w2.
Proof.
  assert (Hp : pool_at dead_world 100 dead_pool) by (split; vm_compute; reflexivity).
  exists ex_env, dead_world, 100, dead_pool, dead_curve. split; [exact ex_env_ok |]. split; [exact dead_reachable |].
  split; [exact Hp |]. split; [reflexivity |]. split; [vm_compute; reflexivity |].
  assert (B : balance dead_world (st_token_b dead_pool) = 5000) by (vm_compute; reflexivity). split; [exact B |].
  intros evs w' H. pose proof (reachable_inv _ _ ex_env_ok dead_reachable) as I.
  assert (R' : reachable ex_env w') by (eapply history_reachable; [exact H | exact dead_reachable]).
  pose proof (reachable_inv _ _ ex_env_ok R') as I'.
  pose proof (balance_u64 dead_world (st_token_a dead_pool) (proj1 I)) as Ua. unfold is_u64 in Ua.
  split.
  - rewrite <- B. refine (proj2 (blocked_history ex_env dead_world evs w' 100 dead_pool dead_curve ex_env_ok dead_reachable H Hp eq_refl _)).
    intros a Ha. apply dead_blocked. unfold is_u64. lia.
  - intros sg accounts n m w2 E. apply (blocked_fails ex_env sg w' accounts n m dead_pool dead_curve w2 ex_env_ok R').
    + rewrite E. exact (history_pool_stays _ _ _ _ _ _ ex_env_ok (proj1 I) H Hp).
    + reflexivity.
    + apply dead_blocked. apply balance_u64. exact (proj1 I').
Qed.
