(** Constant-price pools on the ledger: the value behind a pool token. *)
From Verif Require Import Ints Tactics Fees LinearCurve ConstantPrice SwapCurve Codec Token Processor Api History
  Spec LedgerSpec TraceSpec CurveFacts LinearFacts SwapFacts CurveProps CodecFacts TokenFacts ProcFacts AmountFacts EffectFacts
  TradeFacts CreateFacts PermFacts HistoryFacts LiquidityFacts VaultFacts.

Lemma price_config e w k s p : pool_ok e w k s -> st_curve s = ConstantPrice p -> is_u64 p /\ 0 < p.
Proof.
  intros (au & _ & _ & _ & _ & _ & _ & _ & _ & Cf) Hl. destruct Cf as (_ & _ & _ & _ & _ & Cf). rewrite Hl in Cf. exact Cf.
Qed.

Lemma worth_mono w w' s p : 0 < p -> balance w (st_token_a s) <= balance w' (st_token_a s) ->
  balance w (st_token_b s) <= balance w' (st_token_b s) -> worth w s p <= worth w' s p.
Proof. intros. unfold worth, pool_value. apply Z.add_le_mono; [assumption |]. apply Z.mul_le_mono_nonneg_r || apply Z.mul_le_mono_nonneg_l; lia. Qed.

Definition acts_on (k : Z) (ev : event) : Prop :=
  match ev with Instruction _ i => named_pool i = k | External => False end.

Lemma others_price e w ev w' k s p : env_ok e -> inv e w -> step e w ev w' -> pool_at w k s -> st_curve s = ConstantPrice p ->
  ~ acts_on k ev -> worth w s p <= worth w' s p /\ shares w' s <= shares w s.
Proof.
  intros He I S Hp Hl N. pose proof (price_config _ _ _ _ _ (proj2 I _ _ Hp) Hl) as (_ & P).
  destruct S as [w sg i w' Sg Hpk H | w w' X].
  - cbn [acts_on] in N. split.
    + apply worth_mono; [exact P | |]; (eapply vault_protected; [exact He | exact I | exact Sg | exact Hpk | exact H | exact Hp | | left; exact N]);
        unfold vault_of_pool; auto.
    + eapply mint_protected; eauto.
  - destruct I as (_ & I). specialize (I _ _ Hp). pose proof (pool_pda _ _ _ _ He I) as Hpda.
    destruct I as (au & Hf & _ & Va & Vb & _ & _ & _ & (m & M & A & F) & _). destruct (Hpda _ _ Hf) as (_ & Hi). split.
    + apply worth_mono; [exact P | exact (proj2 (external_vault _ _ _ _ _ _ X Hi Va)) | exact (proj2 (external_vault _ _ _ _ _ _ X Hi Vb))].
    + exact (proj2 (external_mint _ _ _ _ _ _ X Hi M A F)).
Qed.

Lemma created_not_pool e signers w i w' k s : creates i -> exec e signers w i = Ok w' -> pool_at w k s -> named_pool i <> k.
Proof. intros C H Hp <-. exact (create_once _ _ _ _ _ C H _ Hp). Qed.

Lemma swap_price e signers w accounts ain mout w' s p : env_ok e -> inv e w ->
  exec e signers w (Swap accounts ain mout) = Ok w' -> pool_at w (nth 0 accounts 0) s -> st_curve s = ConstantPrice p ->
  let minted := shares w' s - shares w s in
  0 <= minted /\ (owner_trade_fee_num (st_fees s) = 0 -> minted = 0) /\ worth w s p <= worth w' s p /\
  worth w s p * (shares w s + Z.max 0 (minted - 1)) <= worth w' s p * shares w s.
Proof.
  intros He I H Hp Hl. pose proof (price_config _ _ _ _ _ (proj2 I _ _ Hp) Hl) as (U & P).
  destruct (swap_vaults _ _ _ _ _ _ _ _ I H Hp) as (d & r & minted & Ha & Sw & Mi & M0 & Ba & Bb & Su). cbv zeta in *.
  unfold shares. rewrite Su. replace (supply w (st_pool_mint s) + minted - supply w (st_pool_mint s)) with minted by lia.
  pose proof (balance_u64 w (st_token_a s) (proj1 I)) as UA. pose proof (balance_u64 w (st_token_b s) (proj1 I)) as UB.
  pose proof (supply_u64 w (st_pool_mint s) (proj1 I)) as US. unfold is_u64 in UA, UB, US, Ha.
  pose proof (pool_wf _ _ _ (proj1 I) Hp) as (Ws & _). destruct Ws as (_ & _ & _ & _ & _ & _ & _ & _ & Wf & _).
  rewrite Hl in *. split; [exact M0 |].
  set (ss := match d with AtoB => balance w (st_token_a s) | BtoA => balance w (st_token_b s) end) in *.
  set (sd := match d with AtoB => balance w (st_token_b s) | BtoA => balance w (st_token_a s) end) in *.
  assert (Uss : is_u64 ss) by (unfold ss, is_u64; destruct d; assumption).
  assert (Usd : is_u64 sd) by (unfold sd, is_u64; destruct d; assumption).
  split.
  { intros F. unfold curve_swap in Sw. obs Sw. destruct v3 as [x y]. obs Sw. injection Sw as <-. cbn [owner_fee] in Mi.
    unfold owner_trading_fee, calculate_fee in E0. rewrite F in E0. cbn in E0. injection E0 as <-.
    unfold curve_withdraw_single in Mi. cbn in Mi. injection Mi as <-. reflexivity. }
  pose proof (cprice_owner_fee_dilution _ _ _ _ _ _ _ _ _ U P Wf (proj1 Ha) (proj1 Uss) (proj1 Usd)
    (proj1 US) Sw Mi) as D. cbv zeta in D.
  pose proof (cprice_curve_swap _ _ _ _ _ _ _ U P (proj1 Ha) Sw) as (t & Et & Tf & Of & _ & _ & _ & V).
  unfold worth. rewrite Ba, Bb.
  replace (pool_value p (balance w (st_token_a s)) (balance w (st_token_b s)))
    with (pool_value p (side_a d ss sd) (side_b d ss sd)) by (unfold ss, sd; destruct d; reflexivity).
  split; [| exact D].
  pose proof (curve_swap_bounds (ConstantPrice p) _ _ _ _ _ _ U Wf Ha Uss Usd Sw) as (_ & T0 & O0 & _).
  rewrite V. assert (0 <= value_of p t d); [| lia]. unfold value_of. destruct d; nia.
Qed.

Lemma deposit_all_price e signers w accounts n ma mb w' s p : env_ok e -> inv e w ->
  exec e signers w (DepositAll accounts n ma mb) = Ok w' -> pool_at w (nth 0 accounts 0) s -> st_curve s = ConstantPrice p ->
  0 < shares w s ->
  worth w s p * shares w' s <= worth w' s p * shares w s + (shares w' s - shares w s) /\ shares w s <= shares w' s.
Proof.
  intros He I H Hp Hl S0. pose proof (price_config _ _ _ _ _ (proj2 I _ _ Hp) Hl) as (U & P).
  destruct (deposit_all_vaults _ _ _ _ _ _ _ _ _ I H Hp) as (a & b & minted & out & ga & gb & Hn & A0 & B0 & G1 & G2 & C & Q & Ba & Bb & Su).
  cbv zeta in *. unfold shares in *. destruct C as [(C & _) | (C & -> & ->)]; [lia |]. rewrite Hl in Q.
  pose proof (balance_u64 w (st_token_a s) (proj1 I)) as UA. pose proof (balance_u64 w (st_token_b s) (proj1 I)) as UB.
  unfold is_u64 in *.
  pose proof (cprice_deposit_both _ _ _ _ _ _ _ P (proj1 Hn) S0 (proj1 UA) (proj1 UB) Q A0 B0) as D.
  unfold worth. rewrite Ba, Bb, Su. unfold pool_value in *.
  set (V := balance w (st_token_a s) + p * balance w (st_token_b s)) in *.
  pose proof (Z.div_mod V 2 ltac:(lia)). pose proof (Z.mod_pos_bound V 2 ltac:(lia)).
  set (S := supply w (st_pool_mint s)) in *.
  assert (n * (V - 1) <= n * (2 * (V / 2))) by (apply Z.mul_le_mono_nonneg_l; lia).
  assert (0 <= (ga + p * gb) * S) by (apply Z.mul_nonneg_nonneg; nia).
  replace ((balance w (st_token_a s) + a + ga + p * (balance w (st_token_b s) + b + gb)) * S)
    with (V * S + (a + p * b) * S + (ga + p * gb) * S) by (unfold V; ring).
  lia.
Qed.

Lemma withdraw_all_price e signers w accounts n ma mb w' s p : env_ok e -> inv e w -> signers_ok e signers ->
  exec e signers w (WithdrawAll accounts n ma mb) = Ok w' -> pool_at w (nth 0 accounts 0) s -> st_curve s = ConstantPrice p ->
  0 < shares w s -> worth w s p * shares w' s <= worth w' s p * shares w s.
Proof.
  intros He I Sg H Hp Hl S0. pose proof (price_config _ _ _ _ _ (proj2 I _ _ Hp) Hl) as (U & P).
  destruct (withdraw_all_vaults _ _ _ _ _ _ _ _ _ He I Sg H Hp) as (ch & a & b & Hn & Ch & A0 & B0 & Q & Ba & Bb & Su).
  cbv zeta in *. unfold shares in *. rewrite Hl in Q.
  pose proof (balance_u64 w (st_token_a s) (proj1 I)) as UA. pose proof (balance_u64 w (st_token_b s) (proj1 I)) as UB.
  unfold is_u64 in *.
  assert (N0 : 0 <= n - ch) by lia.
  pose proof (cprice_withdraw_both _ _ _ _ _ _ _ P N0 S0 (proj1 UA) (proj1 UB) Q) as (_ & _ & D).
  unfold worth. rewrite Ba, Bb, Su. unfold pool_value in *.
  set (A := balance w (st_token_a s)) in *. set (B := balance w (st_token_b s)) in *.
  set (S := supply w (st_pool_mint s)) in *.
  assert ((Z.min A a + p * Z.min B b) * S <= (a + p * b) * S) by (apply Z.mul_le_mono_nonneg_r; nia).
  replace ((A - Z.min A a + p * (B - Z.min B b)) * S) with ((A + p * B) * S - (Z.min A a + p * Z.min B b) * S) by ring.
  lia.
Qed.

Lemma deposit_single_price e signers w accounts n mp w' s p : env_ok e -> inv e w ->
  exec e signers w (DepositSingle accounts n mp) = Ok w' -> pool_at w (nth 0 accounts 0) s -> st_curve s = ConstantPrice p ->
  0 < shares w s -> worth w s p * shares w' s <= worth w' s p * shares w s.
Proof.
  intros He I H Hp Hl S0. pose proof (price_config _ _ _ _ _ (proj2 I _ _ Hp) Hl) as (U & P).
  destruct (deposit_single_vaults _ _ _ _ _ _ _ _ I H Hp) as (d & t & ga & gb & Hn & T0 & G1 & G2 & Q & Ba & Bb & Su).
  cbv zeta in *. unfold shares in *. rewrite Hl in Q.
  destruct (Z.eqb_spec (supply w (st_pool_mint s)) 0) as [E | _]; [lia |].
  pose proof (balance_u64 w (st_token_a s) (proj1 I)) as UA. pose proof (balance_u64 w (st_token_b s) (proj1 I)) as UB.
  pose proof (pool_wf _ _ _ (proj1 I) Hp) as (Ws & _). destruct Ws as (_ & _ & _ & _ & _ & _ & _ & _ & Wf & _).
  pose proof (cprice_single_deposit_fair _ _ _ _ _ _ _ _ U Wf (proj1 Hn) (proj1 UA) (proj1 UB) (Z.lt_le_incl _ _ S0) Q) as (_ & D).
  unfold worth. rewrite Ba, Bb, Su. unfold pool_value, value_of in *.
  set (A := balance w (st_token_a s)) in *. set (B := balance w (st_token_b s)) in *.
  set (S := supply w (st_pool_mint s)) in *.
  assert (0 <= (ga + p * gb) * S) by (apply Z.mul_nonneg_nonneg; nia).
  destruct d.
  - replace ((A + n + ga + p * (B + 0 + gb)) * S) with ((A + p * B) * S + S * n + (ga + p * gb) * S) by ring. lia.
  - replace ((A + 0 + ga + p * (B + n + gb)) * S) with ((A + p * B) * S + S * (p * n) + (ga + p * gb) * S) by ring. lia.
Qed.

Lemma withdraw_single_price e signers w accounts n mp w' s p : env_ok e -> inv e w -> signers_ok e signers ->
  exec e signers w (WithdrawSingle accounts n mp) = Ok w' -> pool_at w (nth 0 accounts 0) s -> st_curve s = ConstantPrice p ->
  trade_fee_num (st_fees s) = 0 -> worth w s p * shares w' s <= worth w' s p * shares w s.
Proof.
  intros He I Sg H Hp Hl F. pose proof (price_config _ _ _ _ _ (proj2 I _ _ Hp) Hl) as (U & P).
  destruct (withdraw_single_vaults _ _ _ _ _ _ _ _ He I Sg H Hp) as (d & t & ch & Hn & T0 & _ & Q & Ba & Bb & Su).
  cbv zeta in *. unfold shares in *. rewrite Hl in Q.
  pose proof (balance_u64 w (st_token_a s) (proj1 I)) as UA. pose proof (balance_u64 w (st_token_b s) (proj1 I)) as UB.
  pose proof (supply_u64 w (st_pool_mint s) (proj1 I)) as US.
  pose proof (pool_wf _ _ _ (proj1 I) Hp) as (Ws & _). destruct Ws as (_ & _ & _ & _ & _ & _ & _ & _ & Wf & _).
  pose proof (cprice_single_withdraw_fair _ _ _ _ _ _ _ _ U Wf F (proj1 Hn) (proj1 UA) (proj1 UB) (proj1 US) Q T0) as D.
  unfold worth. rewrite Ba, Bb, Su. unfold pool_value, value_of in *.
  set (A := balance w (st_token_a s)) in *. set (B := balance w (st_token_b s)) in *.
  set (S := supply w (st_pool_mint s)) in *.
  destruct d.
  - replace ((A - n + p * (B - 0)) * S) with ((A + p * B) * S - S * n) by ring. lia.
  - replace ((A - 0 + p * (B - n)) * S) with ((A + p * B) * S - S * (p * n)) by ring. lia.
Qed.

Lemma acts_dec k ev : acts_on k ev \/ ~ acts_on k ev.
Proof. destruct ev as [sg i |]; cbn; [destruct (Z.eq_dec (named_pool i) k); auto | auto]. Qed.

Lemma price_step e w ev w' k s p : env_ok e -> inv e w -> step e w ev w' -> pool_at w k s -> st_curve s = ConstantPrice p ->
  trade_fee_num (st_fees s) = 0 -> owner_trade_fee_num (st_fees s) = 0 -> 0 < shares w s ->
  (forall signers accounts n ma mb, ev = Instruction signers (DepositAll accounts n ma mb) -> nth 0 accounts 0 <> k) ->
  worth w s p * shares w' s <= worth w' s p * shares w s.
Proof.
  intros He I S Hp Hl F1 F2 S0 N. pose proof (price_config _ _ _ _ _ (proj2 I _ _ Hp) Hl) as (U & P).
  assert (V0 : 0 <= worth w s p).
  { unfold worth, pool_value. pose proof (balance_u64 w (st_token_a s) (proj1 I)) as UA. pose proof (balance_u64 w (st_token_b s) (proj1 I)) as UB.
    unfold is_u64 in *. nia. }
  assert (Up : worth w s p <= worth w' s p -> shares w' s <= shares w s -> worth w s p * shares w' s <= worth w' s p * shares w s).
  { intros L1 L2. transitivity (worth w s p * shares w s); [apply Z.mul_le_mono_nonneg_l | apply Z.mul_le_mono_nonneg_r]; lia. }
  destruct (acts_dec k ev) as [Ac | Ac].
  2:{ destruct (others_price _ _ _ _ _ _ _ He I S Hp Hl Ac). auto. }
  destruct S as [w sg i w' Sg Hpk H | w w' X]; [| destruct Ac]. cbn [acts_on] in Ac. unfold named_pool in Ac. subst k.
  destruct i as [acc f q | acc a b c d | accounts ain mout | accounts n ma mb | accounts n ma mb | accounts n mp | accounts n mp];
    cbn [instr_accounts] in *.
  - exfalso. refine (created_not_pool _ _ _ _ _ _ _ _ H Hp eq_refl). exact Logic.I.
  - exfalso. refine (created_not_pool _ _ _ _ _ _ _ _ H Hp eq_refl). exact Logic.I.
  - destruct (swap_price _ _ _ _ _ _ _ _ _ He I H Hp Hl) as (_ & Z0 & L & _). specialize (Z0 F2). apply Up; lia.
  - destruct (N _ _ _ _ _ eq_refl eq_refl).
  - exact (withdraw_all_price _ _ _ _ _ _ _ _ _ _ He I Sg H Hp Hl S0).
  - exact (deposit_single_price _ _ _ _ _ _ _ _ _ He I H Hp Hl S0).
  - exact (withdraw_single_price _ _ _ _ _ _ _ _ _ He I Sg H Hp Hl F1).
Qed.

Lemma trace_inv e w l w' : env_ok e -> trace e w l w' -> inv e w -> inv e w'.
Proof. intros He H. induction H as [| w ev w1 l w2 S _ IH]; auto. intros I. apply IH. exact (step_inv _ _ _ _ He I S). Qed.

Lemma price_trace e w l w' k s p : env_ok e -> inv e w -> trace e w l w' -> pool_at w k s -> st_curve s = ConstantPrice p ->
  trade_fee_num (st_fees s) = 0 -> owner_trade_fee_num (st_fees s) = 0 -> 0 < shares w s ->
  Forall (fun x => 0 < shares (snd x) s) l ->
  (forall signers accounts n ma mb w1, In (Instruction signers (DepositAll accounts n ma mb), w1) l -> nth 0 accounts 0 <> k) ->
  worth w s p * shares w' s <= worth w' s p * shares w s.
Proof.
  intros He I H Hp Hl F1 F2. revert I Hp. induction H as [w | w ev w1 l w2 S T IH]; intros I Hp S0 F N; [lia |].
  apply Forall_cons_iff in F. destruct F as [S1 F]. cbn [snd] in S1.
  pose proof (step_inv _ _ _ _ He I S) as I1. pose proof (step_pool_stays _ _ _ _ _ _ He (proj1 I) S Hp) as Hp1.
  assert (A : worth w s p * shares w1 s <= worth w1 s p * shares w s).
  { eapply price_step; eauto. intros. subst ev. eapply N. left. reflexivity. }
  assert (B : worth w1 s p * shares w2 s <= worth w2 s p * shares w1 s).
  { apply IH; auto. intros. eapply N. right. eassumption. }
  assert (U2 : 0 <= shares w2 s) by (apply (supply_u64 w2 (st_pool_mint s)); exact (proj1 (trace_inv _ _ _ _ He T I1))).
  apply Z.mul_le_mono_pos_r with (p := shares w1 s); [exact S1 |].
  transitivity (worth w1 s p * shares w s * shares w2 s).
  - replace (worth w s p * shares w2 s * shares w1 s) with (worth w s p * shares w1 s * shares w2 s) by ring.
    apply Z.mul_le_mono_nonneg_r; assumption.
  - replace (worth w1 s p * shares w s * shares w2 s) with (worth w1 s p * shares w2 s * shares w s) by ring.
    replace (worth w2 s p * shares w s * shares w1 s) with (worth w2 s p * shares w1 s * shares w s) by ring.
    apply Z.mul_le_mono_nonneg_r; [lia | assumption].
Qed.
