(** What the fees of a constant-price pool give away over a history. *)
From Verif Require Import Ints Tactics Fees LinearCurve ConstantPrice SwapCurve Codec Token Processor Api History
  Spec LedgerSpec TraceSpec TripSpec CurveFacts SwapFacts EffectFacts HistoryFacts VaultFacts LedgerPrice TripFacts.

Lemma half_fee_is f n fee : fees_wf f -> trading_fee f (Z.max 1 (n / 2)) = Val fee -> fee = half_fee f n.
Proof.
  intros Wf H. unfold trading_fee, calculate_fee in H. unfold half_fee.
  destruct (Z.eqb_spec (trade_fee_num f) 0); cbn [orb] in H; [injection H as <-; reflexivity |].
  destruct (Z.eqb_spec (Z.max 1 (n / 2)) 0); [lia |]. unfold mul_in in H.
  destruct (_ <=? u128_max); cbn [obind] in H; [| discriminate]. unfold cdiv in H.
  destruct (Z.eqb_spec (trade_fee_den f) 0) as [| D]; cbn [obind] in H; [discriminate |].
  destruct Wf as (W1 & W2 & _). unfold is_u64 in W1, W2.
  assert (0 <= Z.max 1 (n / 2) * trade_fee_num f / trade_fee_den f)
    by (apply Z.div_pos; [apply Z.mul_nonneg_nonneg; lia | lia]).
  set (q := Z.max 1 (n / 2) * trade_fee_num f / trade_fee_den f) in *.
  destruct (Z.eqb_spec q 0); injection H as <-; lia.
Qed.

Lemma half_fee_nonneg f n : 0 <= half_fee f n.
Proof. unfold half_fee. destruct (_ =? 0); lia. Qed.

Lemma withdraw_single_gift e signers w accounts n mp w' s p : env_ok e -> inv e w -> signers_ok e signers ->
  exec e signers w (WithdrawSingle accounts n mp) = Ok w' -> pool_at w (nth 0 accounts 0) s -> st_curve s = ConstantPrice p ->
  worth w s p * shares w' s <= worth w' s p * shares w s +
    (if balance w' (st_token_a s) <? balance w (st_token_a s) then 1 else p) * half_fee (st_fees s) n * shares w s.
Proof.
  intros He I Sg H Hp Hl. pose proof (price_config _ _ _ _ _ (proj2 I _ _ Hp) Hl) as (U & P).
  destruct (withdraw_single_vaults _ _ _ _ _ _ _ _ He I Sg H Hp) as (d & t & ch & Hn & T0 & _ & Q & Ba & Bb & Su).
  cbv zeta in *. unfold shares in *. rewrite Hl in Q.
  pose proof (balance_u64 w (st_token_a s) (proj1 I)) as UA. pose proof (balance_u64 w (st_token_b s) (proj1 I)) as UB.
  pose proof (supply_u64 w (st_pool_mint s) (proj1 I)) as US.
  pose proof (pool_wf _ _ _ (proj1 I) Hp) as (Ws & _). destruct Ws as (_ & _ & _ & _ & _ & _ & _ & _ & Wf & _).
  assert (Hn0 : 0 < n).
  { unfold is_u64 in Hn. destruct (Z.eq_dec n 0) as [-> | ]; [| lia].
    unfold curve_withdraw_single in Q. change (0 =? 0) with true in Q. cbn iota in Q. injection Q as <-. lia. }
  destruct (cprice_single_withdraw_partial _ _ _ _ _ _ _ _ U Wf Hn0 (proj1 UA) (proj1 UB) (proj1 US) Q T0) as (fee & Fe & _ & D).
  apply half_fee_is in Fe; [| exact Wf]. subst fee.
  unfold worth. rewrite Ba, Bb, Su. unfold pool_value, value_of in *.
  set (A := balance w (st_token_a s)) in *. set (B := balance w (st_token_b s)) in *.
  set (S := supply w (st_pool_mint s)) in *. set (h := half_fee (st_fees s) n) in *.
  destruct d.
  - destruct (Z.ltb_spec (A - n) A); [| lia]. replace ((A - n + p * (B - 0)) * S) with ((A + p * B) * S - S * n) by ring. lia.
  - destruct (Z.ltb_spec (A - 0) A); [lia |]. replace ((A - 0 + p * (B - n)) * S) with ((A + p * B) * S - S * (p * n)) by ring. lia.
Qed.

Lemma swap_gift e signers w accounts ain mout w' s p : env_ok e -> inv e w ->
  exec e signers w (Swap accounts ain mout) = Ok w' -> pool_at w (nth 0 accounts 0) s -> st_curve s = ConstantPrice p ->
  0 < shares w s ->
  worth w s p * shares w' s <= worth w' s p * shares w s +
    (if shares w s <? shares w' s then (worth w s p + shares w s - 1) / shares w s else 0) * shares w s.
Proof.
  intros He I H Hp Hl S0. destruct (swap_price _ _ _ _ _ _ _ _ _ He I H Hp Hl) as (M0 & _ & L & D). cbv zeta in *.
  set (V := worth w s p) in *. set (V' := worth w' s p) in *. set (S := shares w s) in *. set (S' := shares w' s) in *.
  destruct (Z.ltb_spec S S').
  - rewrite Z.max_r in D by lia. replace (S + (S' - S - 1)) with (S' - 1) in D by lia.
    pose proof (Z.div_mod (V + S - 1) S ltac:(lia)). pose proof (Z.mod_pos_bound (V + S - 1) S ltac:(lia)).
    set (q := (V + S - 1) / S) in *. lia.
  - replace S' with S by lia. rewrite Z.mul_0_l, Z.add_0_r. apply Z.mul_le_mono_nonneg_r; lia.
Qed.

Lemma gift_step e w ev w' k s p : env_ok e -> inv e w -> step e w ev w' -> pool_at w k s -> st_curve s = ConstantPrice p ->
  0 < shares w s ->
  worth w s p * shares w' s <= worth w' s p * shares w s + (if enters k ev then shares w' s - shares w s else 0)
    + gift k s p w ev w' * shares w s /\
  (enters k ev = true -> shares w s <= shares w' s) /\ 0 <= gift k s p w ev w'.
Proof.
  intros He I S Hp Hl S0. pose proof (price_config _ _ _ _ _ (proj2 I _ _ Hp) Hl) as (U & P).
  assert (V0 : 0 <= worth w s p).
  { unfold worth, pool_value. pose proof (balance_u64 w (st_token_a s) (proj1 I)) as UA. pose proof (balance_u64 w (st_token_b s) (proj1 I)) as UB.
    unfold is_u64 in *. nia. }
  assert (G0 : 0 <= gift k s p w ev w').
  { unfold gift. destruct ev as [sg i |]; [| lia].
    destruct i as [acc f q | acc a b c d | accounts ain mout | accounts n ma mb | accounts n ma mb | accounts n mp | accounts n mp]; try lia.
    - destruct (_ && _); [apply Z.div_pos; lia | lia].
    - destruct (_ =? _); [| lia]. pose proof (half_fee_nonneg (st_fees s) n). apply Z.mul_nonneg_nonneg; [destruct (_ <? _); lia | assumption]. }
  enough (worth w s p * shares w' s <= worth w' s p * shares w s + (if enters k ev then shares w' s - shares w s else 0)
    + gift k s p w ev w' * shares w s /\ (enters k ev = true -> shares w s <= shares w' s)) by tauto.
  assert (GS : 0 <= gift k s p w ev w' * shares w s) by (apply Z.mul_nonneg_nonneg; lia).
  destruct (acts_dec k ev) as [Ac | Ac].
  2:{ assert (En : enters k ev = false).
      { destruct ev as [sg i |]; [| reflexivity].
        destruct i as [acc f q | acc a b c d | accounts ain mout | accounts n ma mb | accounts n ma mb | accounts n mp | accounts n mp]; try reflexivity.
        cbn [enters]. apply Z.eqb_neq. exact Ac. }
      rewrite En. split; [| discriminate].
      destruct (others_price _ _ _ _ _ _ _ He I S Hp Hl Ac) as (L1 & L2).
      assert (worth w s p * shares w' s <= worth w' s p * shares w s); [| lia].
      transitivity (worth w s p * shares w s); [apply Z.mul_le_mono_nonneg_l | apply Z.mul_le_mono_nonneg_r]; lia. }
  destruct S as [w sg i w' Sg Hpk H | w w' X]; [| destruct Ac]. cbn [acts_on] in Ac. unfold named_pool in Ac. subst k.
  destruct i as [acc f q | acc a b c d | accounts ain mout | accounts n ma mb | accounts n ma mb | accounts n mp | accounts n mp];
    cbn [instr_accounts] in *.
  - exfalso. refine (created_not_pool _ _ _ _ _ _ _ _ H Hp eq_refl). exact Logic.I.
  - exfalso. refine (created_not_pool _ _ _ _ _ _ _ _ H Hp eq_refl). exact Logic.I.
  - pose proof (swap_gift _ _ _ _ _ _ _ _ _ He I H Hp Hl S0) as G. cbn [enters gift]. rewrite Z.eqb_refl, Z.add_0_r.
    cbn [andb]. split; [exact G | discriminate].
  - destruct (deposit_all_price _ _ _ _ _ _ _ _ _ _ He I H Hp Hl S0) as (K & L). cbn [enters gift]. rewrite Z.eqb_refl, Z.mul_0_l, Z.add_0_r.
    split; [exact K | intros _; exact L].
  - cbn [enters gift]. rewrite Z.mul_0_l, !Z.add_0_r. split; [| discriminate].
    exact (withdraw_all_price _ _ _ _ _ _ _ _ _ _ He I Sg H Hp Hl S0).
  - cbn [enters gift]. rewrite Z.mul_0_l, !Z.add_0_r. split; [| discriminate].
    exact (deposit_single_price _ _ _ _ _ _ _ _ _ He I H Hp Hl S0).
  - cbn [enters gift]. rewrite Z.eqb_refl, Z.add_0_r. split; [| discriminate].
    exact (withdraw_single_gift _ _ _ _ _ _ _ _ _ He I Sg H Hp Hl).
Qed.

Lemma gift_invariant V0 S0 V S V' S' m N d r : 0 < m <= S0 -> m <= S -> m <= S' -> 0 <= N -> 0 <= S0 -> 0 <= r ->
  V0 * S * m <= V * S0 * m + N * S0 * S ->
  V * S' <= V' * S + (if d : bool then S' - S else 0) + r * S -> (d = true -> S <= S') ->
  V0 * S' * m <= V' * S0 * m + (N + (if d then 1 else 0) + r) * S0 * S'.
Proof.
  intros Hm L L' HN H0 Hr K T D. apply Z.mul_le_mono_pos_r with (p := S); [lia |].
  assert (K' : V0 * S * m * S' <= (V * S0 * m + N * S0 * S) * S') by (apply Z.mul_le_mono_nonneg_r; lia).
  assert (M0 : 0 <= S0 * m) by (apply Z.mul_nonneg_nonneg; lia).
  assert (T' : V * S' * (S0 * m) <= (V' * S + (if d then S' - S else 0) + r * S) * (S0 * m)) by (apply Z.mul_le_mono_nonneg_r; assumption).
  assert (Q : (if d then S' - S else 0) * (S0 * m) <= (if d then 1 else 0) * S0 * S' * S).
  { destruct d; [| lia]. specialize (D eq_refl). rewrite Z.mul_1_l.
    transitivity (S' * (S0 * m)); [apply Z.mul_le_mono_nonneg_r; lia |].
    replace (S0 * S' * S) with (S' * (S0 * S)) by ring. apply Z.mul_le_mono_nonneg_l; [lia |]. apply Z.mul_le_mono_nonneg_l; lia. }
  assert (R : r * S * S0 * m <= r * S * S0 * S').
  { apply Z.mul_le_mono_nonneg_l; [| lia]. repeat apply Z.mul_nonneg_nonneg; lia. }
  destruct d; lia.
Qed.

Lemma gift_run e w l w' k s p m V0 S0 : env_ok e -> trace e w l w' -> st_curve s = ConstantPrice p -> 0 < m <= S0 ->
  forall N, 0 <= N -> inv e w -> pool_at w k s -> m <= shares w s -> Forall (fun x => m <= shares (snd x) s) l ->
  V0 * shares w s * m <= worth w s p * S0 * m + N * S0 * shares w s ->
  V0 * shares w' s * m <= worth w' s p * S0 * m + (N + entries k l + gifts k s p w l) * S0 * shares w' s.
Proof.
  intros He T Hl Hm. induction T as [w | w ev w1 l w2 St T IH]; intros N HN I Hp L F K.
  - change (entries k []) with 0. cbn [gifts]. rewrite !Z.add_0_r. exact K.
  - apply Forall_cons_iff in F. destruct F as [L1 F]. cbn [snd] in L1.
    destruct (gift_step _ _ _ _ _ _ _ He I St Hp Hl ltac:(lia)) as (B & D & G).
    rewrite entries_cons. cbn [fst gifts].
    replace (N + ((if enters k ev then 1 else 0) + entries k l) + (gift k s p w ev w1 + gifts k s p w1 l))
      with ((N + (if enters k ev then 1 else 0) + gift k s p w ev w1) + entries k l + gifts k s p w1 l) by ring.
    apply IH; [destruct (enters k ev); lia | exact (step_inv _ _ _ _ He I St) |
      exact (step_pool_stays _ _ _ _ _ _ He (proj1 I) St Hp) | exact L1 | exact F |].
    exact (gift_invariant _ _ _ _ _ _ _ _ _ _ Hm L L1 HN ltac:(lia) G K B D).
Qed.

Lemma trip_gifts e w l w' k s p m : env_ok e -> reachable e w -> trace e w l w' ->
  pool_at w k s -> st_curve s = ConstantPrice p ->
  0 < m <= shares w s -> Forall (fun x => m <= shares (snd x) s) l -> shares w s <= shares w' s ->
  worth w s p * m <= worth w' s p * m + (entries k l + gifts k s p w l) * shares w s.
Proof.
  intros He R T Hp Hl Hm F L. pose proof (reachable_inv _ _ He R) as I.
  pose proof (gift_run e w l w' k s p m (worth w s p) (shares w s) He T Hl Hm 0 ltac:(lia) I Hp ltac:(lia) F ltac:(lia)) as K.
  rewrite Z.add_0_l in K.
  assert (V0 : 0 <= worth w' s p).
  { pose proof (price_config _ _ _ _ _ (proj2 I _ _ Hp) Hl) as (_ & P). pose proof (proj1 (trace_inv _ _ _ _ He T I)) as W'.
    unfold worth, pool_value. pose proof (balance_u64 w' (st_token_a s) W') as UA. pose proof (balance_u64 w' (st_token_b s) W') as UB.
    unfold is_u64 in *. nia. }
  apply Z.mul_le_mono_pos_r with (p := shares w' s); [lia |].
  assert (worth w' s p * m * shares w s <= worth w' s p * m * shares w' s) by (apply Z.mul_le_mono_nonneg_l; nia).
  lia.
Qed.

Lemma share_gifts e w l w' k s p m : env_ok e -> reachable e w -> trace e w l w' ->
  pool_at w k s -> st_curve s = ConstantPrice p ->
  0 < m <= shares w s -> Forall (fun x => m <= shares (snd x) s) l ->
  worth w s p * shares w' s * m <= worth w' s p * shares w s * m
    + (entries k l + gifts k s p w l) * shares w s * shares w' s.
Proof.
  intros He R T Hp Hl Hm F. pose proof (reachable_inv _ _ He R) as I.
  pose proof (gift_run e w l w' k s p m (worth w s p) (shares w s) He T Hl Hm 0 ltac:(lia) I Hp ltac:(lia) F ltac:(lia)) as K.
  rewrite Z.add_0_l in K. exact K.
Qed.
