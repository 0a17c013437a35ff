(** Gifts of collateral before sales. *)
From Verif Require Import Ints Tactics DfsPrecise Fees LinearCurve SwapCurve Codec Token Processor Api History
  Spec LedgerSpec TraceSpec GiftSpec DfsFacts TokenFacts LinearFacts SwapFacts LinearProps EffectFacts VaultFacts HistoryFacts LedgerLinear OfferFacts.

Lemma sale_left_mono c n ss ss' a a' t x t' x' : linear_wf c -> is_u64 n -> is_u64 ss -> is_u64 ss' -> is_u64 a -> is_u64 a' -> a <= a' ->
  linear_swap c n ss a BtoA = Val (t, x) -> linear_swap c n ss' a' BtoA = Val (t', x') -> a - x <= a' - x' /\ t <= t'.
Proof.
  intros Hc Hn Hs Hs' Ha Ha' L H H'.
  apply linear_swap_b_to_a in H; try assumption. apply linear_swap_b_to_a in H'; try assumption.
  destruct H as (Hp & _ & _ & b0 & Hb & H). destruct H' as (_ & _ & _ & b0' & Hb' & H').
  unfold is_u64, u64_max in *. assert (M : b0 <= b0') by (apply (b_value_mono c a a' true); try assumption; lia).
  pose proof ONE_pos as HO.
  destruct H as [(N & T & E) | (N & T & A & _ & _ & E)]; destruct H' as [(N' & T' & E') | (N' & T' & A' & _ & _ & E')].
  - split; [lia |]. unfold ONE in *. lia.
  - split; [| unfold ONE in *; lia]. assert (x' <= a'); [| lia]. rewrite E'. apply Z.div_le_upper_bound; [exact HO |].
    assert (0 <= area c (end_position b0' n * ONE)); [| lia]. apply area_nonneg; [exact Hp |].
    apply Z.mul_nonneg_nonneg; [apply end_position_nonneg; exact N' | lia].
  - exfalso. lia.
  - split; [| lia].
    assert (P : 0 <= end_position b0 n <= end_position b0' n).
    { split; [apply end_position_nonneg; exact N | apply cdivup_mono; [exact HO | lia]]. }
    assert (AM : area c (end_position b0 n * ONE) <= area c (end_position b0' n * ONE)) by (apply area_mono; [exact Hp | unfold ONE in *; lia]).
    set (u := area c (end_position b0 n * ONE)) in *. set (v := area c (end_position b0' n * ONE)) in *.
    pose proof (div_bounds (a * ONE - u) ONE HO) as D. pose proof (div_bounds (a' * ONE - v) ONE HO) as D'.
    rewrite <- E in D. rewrite <- E' in D'. unfold ONE in *. lia.
Qed.

Lemma sales_mono c ns a b r q : linear_wf c -> sales c ns a b r q -> forall a' b' r' q', is_u64 a -> is_u64 a' -> a <= a' ->
  sales c ns a' b' r' q' -> 0 <= r <= r'.
Proof.
  intros Hc H. induction H as [a b | n ns a b t x r q Hn Hb E _ IH]; intros a' b' r' q' Ha Ha' L H'.
  - inversion H'; subst. unfold is_u64 in *. lia.
  - inversion H' as [| n0 ns0 a0 b0 t' x' r0 q0 _ Hb' E' S']; subst.
    destruct (sale_left_mono _ _ _ _ _ _ _ _ _ _ Hc Hn Hb Hb' Ha Ha' L E E') as (M & _).
    pose proof (linear_swap_bounds _ _ _ _ _ _ _ Hc Hn Hb Ha E) as (_ & B & B0).
    pose proof (linear_swap_bounds _ _ _ _ _ _ _ Hc Hn Hb' Ha' E') as (_ & B' & B0').
    specialize (B0 eq_refl). specialize (B0' eq_refl).
    unfold is_u64 in *. apply (IH (a' - x') (b' + t') r' q'); try assumption; lia.
Qed.

Lemma gift_sale c n b a g t x t' x' : linear_wf c -> is_u64 n -> is_u64 b -> is_u64 a -> 0 <= g -> is_u64 (a + g) ->
  linear_swap c n b a BtoA = Val (t, x) -> linear_swap c n b (a + g) BtoA = Val (t', x') -> x' <= x + g /\ t <= t'.
Proof.
  intros Hc Hn Hb Ha Hg Ha' H H'.
  destruct (sale_left_mono c n b b a (a + g) t x t' x' Hc Hn Hb Hb Ha Ha' ltac:(lia) H H') as (M & T). lia.
Qed.

Lemma gift_sales c ns a b g r q r' q' : linear_wf c -> is_u64 a -> 0 <= g -> is_u64 (a + g) ->
  sales c ns a b r q -> sales c ns (a + g) b r' q' -> a + g - r' <= a - r + g.
Proof.
  intros Hc Ha Hg Ha' H H'. pose proof (sales_mono c ns a b r q Hc H (a + g) b r' q' Ha Ha' ltac:(lia) H'). lia.
Qed.

Lemma gift_purchase c s a g dest t x t' x' : linear_wf c -> is_u64 s -> is_u64 a -> 0 <= g -> is_u64 (a + g) -> is_u64 (s + g) ->
  is_u64 dest -> linear_swap c (s + g) a dest AtoB = Val (t, x) -> linear_swap c s (a + g) dest AtoB = Val (t', x') ->
  x' < dest \/ linear_validate c = Ok tt /\ 2 * cost_den c <= cost_num c dest -> x' <= x /\ t <= t' + g.
Proof.
  intros Hc Hs Ha Hg Hag Hsg Hd H H' L.
  apply linear_swap_a_to_b in H; try assumption. apply linear_swap_a_to_b in H'; try assumption.
  destruct H as (Hp & _ & _ & b0 & Hb0 & H). destruct H' as (_ & _ & _ & b0' & Hb0' & H').
  assert (M : b0 <= b0').
  { unfold is_u64, u64_max in *. apply (b_value_mono c a (a + g) true); try assumption; lia. }
  assert (B0 : 0 <= b0). { unfold is_u64, u64_max in Ha. apply (b_up_bounds c a b0 Hp ltac:(lia) Hb0). }
  destruct H' as [(E' & Hc' & Hso') | (E' & Hno' & b1' & Hb1' & _ & E2' & _)].
  - destruct H as [(E & Hc1 & Hso) | (E & Hno & b1 & Hb1 & _ & E2 & _)].
    + split; [lia |]. destruct Hso as (_ & Hso & _). destruct Hso' as (_ & Hso' & _).
      assert (area c (b0 + dest * ONE) <= area c (b0' + dest * ONE)); [| unfold ONE in *; lia].
      unfold is_u64 in Hd. apply area_mono; [exact Hp | unfold ONE; lia].
    + exfalso. destruct L as [L | (Hv & L)]; [lia |].
      assert (D0 : 0 < dest).
      { destruct (Z.eq_dec dest 0) as [-> |]; [| unfold is_u64 in Hd; lia]. exfalso.
        destruct Hp as (_ & P1 & P2 & P3). unfold cost_den, cost_num in L. nia. }
      pose proof (rest_costs c a b0 dest Hc Hv Ha D0 Hb0 L) as Low.
      destruct (charge_cases c a b0 dest (s + g) Hp Ha Hsg B0 ltac:(lia)) as [(k & Hk & Hk') | N];
        [exact (Hno k Hk Hk') |].
      destruct Hso' as (_ & Hso' & Lim & Lim2).
      set (y := b0 + dest * ONE) in *. set (y' := b0' + dest * ONE) in *.
      assert (Hy : 0 <= y <= y') by (unfold y, y', ONE; lia).
      pose proof (area_mono c y y' Hp Hy) as AM.
      set (k := (2 * (area c y - a * ONE) + ONE) / (2 * ONE)).
      pose proof (div_bounds (2 * (area c y - a * ONE) + ONE) (2 * ONE) ltac:(unfold ONE; lia)) as D. fold k in D. clearbody k.
      apply (N k); [unfold ONE in *; lia |]. unfold sold_out_cost. fold y.
      split; [exact Low |]. split; [unfold ONE in *; lia |]. split; [lia |].
      apply Z.le_lt_trans with (slope_num c * y' * y'); [| exact Lim2].
      rewrite <- !Z.mul_assoc. apply Z.mul_le_mono_nonneg_l; [destruct Hp as (_ & P & _); lia |].
      apply Z.mul_le_mono_nonneg; lia.
  - destruct H as [(E & Hc1 & _) | (E & _ & b1 & Hb1 & _ & E2 & _)].
    + split; [| lia]. destruct L as [L | (Hv & L)]; [lia |].
      assert (D0 : 0 < dest).
      { destruct (Z.eq_dec dest 0) as [-> |]; [| unfold is_u64 in Hd; lia]. exfalso.
        destruct Hp as (_ & P1 & P2 & P3). unfold cost_den, cost_num in L. nia. }
      pose proof (rest_costs c (a + g) b0' dest Hc Hv Hag D0 Hb0' L) as Low.
      pose proof (fits c (a + g) b0' b1' dest s Hc Hv Hag Hs Hd Hb0' Hb1' Low Hno') as F.
      rewrite E, E2'. assert ((b1' - b0') / ONE < dest + 1); [| lia].
      apply Z.div_lt_upper_bound; [exact ONE_pos | lia].
    + split; [| lia]. replace (a + g + s) with (a + (s + g)) in Hb1' by ring. rewrite Hb1 in Hb1'. injection Hb1' as <-.
      rewrite E2, E2'. apply Z.div_le_mono; [exact ONE_pos |]. lia.
Qed.

(** On the ledger. *)
Lemma sale_ledger e k s c sg1 sg2 acc1 acc2 n m1 m2 w1 w2 w1' w2' : env_ok e -> reachable e w1 -> reachable e w2 ->
  pool_at w1 k s -> pool_at w2 k s -> st_curve s = LinearPrice c ->
  nth 0 acc1 0 = k -> nth 0 acc2 0 = k -> nth 4 acc1 0 <> st_token_a s -> nth 4 acc2 0 <> st_token_a s ->
  exec e sg1 w1 (Swap acc1 n m1) = Ok w1' -> exec e sg2 w2 (Swap acc2 n m2) = Ok w2' ->
  balance w1 (st_token_a s) <= balance w2 (st_token_a s) -> balance w1' (st_token_a s) <= balance w2' (st_token_a s).
Proof.
  intros He R1 R2 P1 P2 Hl K1 K2 D1 D2 X1 X2 L.
  pose proof (reachable_inv _ _ He R1) as I1. pose proof (reachable_inv _ _ He R2) as I2.
  pose proof (linear_config _ _ _ _ _ (proj2 I1 _ _ P1) Hl) as (Hf & Hc).
  pose proof (swap_vaults_at _ _ _ _ _ _ _ _ I1 X1 ltac:(rewrite K1; exact P1)) as S1.
  pose proof (swap_vaults_at _ _ _ _ _ _ _ _ I2 X2 ltac:(rewrite K2; exact P2)) as S2.
  cbv zeta in S1, S2. apply Z.eqb_neq in D1, D2. rewrite D1 in S1. rewrite D2 in S2. rewrite Hl in S1, S2. cbn [side_a side_b] in S1, S2.
  destruct S1 as (r1 & q1 & Un & C1 & _ & _ & V1 & _). destruct S2 as (r2 & q2 & _ & C2 & _ & _ & V2 & _).
  rewrite Hf in C1, C2.
  apply (feeless_swap _ _ _ _ _ _ _ linear_feeless Un) in C1. apply (feeless_swap _ _ _ _ _ _ _ linear_feeless Un) in C2.
  cbn [swap_without_fees] in C1, C2.
  destruct C1 as (C1 & _ & _ & _ & _ & N1 & _). destruct C2 as (C2 & _ & _ & _ & _ & N2 & _).
  rewrite V1, V2, N1, N2.
  refine (proj1 (sale_left_mono c n _ _ _ _ _ _ _ _ (proj1 Hc) Un _ _ _ _ L C1 C2)); apply balance_u64; apply I1 || apply I2.
Qed.
