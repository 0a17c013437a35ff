(** Redeeming all pool tokens of a constant-price pool at once: when it works (C116). *)
From Verif Require Import Ints Tactics Fees LinearCurve ConstantPrice SwapCurve Codec Token Processor Api History
  Spec LedgerSpec CallSpec LiveSpec TraceSpec QuoteSpec QuoteCurves TokenFacts EffectFacts CreateFacts HistoryFacts VaultFacts
  ExactFacts LiveFacts LedgerPrice ExitFacts LiveWithdraw LedgerExamples HistoryExamples.

(** The arithmetic: when half of the pool's worth leaves a side with something in it unpaid. *)
Lemma half_none A B p : 0 < p -> 0 <= A -> 0 <= B -> let h := pool_value p A B / 2 in
  ((Z.min A h = 0 -> A = 0) <-> ~ (A = 1 /\ B = 0)) /\
  ((Z.min B (h / p) = 0 -> B = 0) <-> ~ (B = 1 /\ A < p)).
Proof.
  intros P HA HB h. unfold pool_value in h.
  pose proof (Z.div_mod (A + p * B) 2 ltac:(lia)) as E. pose proof (Z.mod_pos_bound (A + p * B) 2 ltac:(lia)) as L. fold h in E.
  assert (PB : 0 <= p * B) by nia. split; split.
  - intros H (-> & ->). assert (h = 0) by lia. specialize (H ltac:(lia)). lia.
  - intros N M. destruct (Z.eq_dec A 0) as [| NA]; [assumption |]. exfalso. apply N.
    assert (h = 0) by lia. assert (p * B = 0) by lia. split; [lia |]. nia.
  - intros H (-> & L1). assert (h / p = 0) by (apply Z.div_small; lia). specialize (H ltac:(lia)). lia.
  - intros N M. destruct (Z.eq_dec B 0) as [| NB]; [assumption |]. exfalso. apply N.
    assert (Q : h / p = 0) by (pose proof (Z.div_pos h p ltac:(lia) P); lia).
    assert (h < p) by (apply Z.div_small_iff in Q; lia).
    assert (B < 2) by nia. assert (B = 1) by lia. subst B. lia.
Qed.

Lemma redeem_all_when e signers w pool authority s user source dest_a dest_b rest ma mb p :
  env_ok e -> reachable e w -> signers_ok e signers ->
  pool_at w pool s -> find_pda e pool = Some (authority, st_bump_seed s) -> st_curve s = ConstantPrice p ->
  is_u64 ma -> is_u64 mb -> In user signers -> single_signer w user -> single_signer w authority ->
  thawed w (st_token_a s) -> thawed w (st_token_b s) ->
  wallet w source user (st_pool_mint s) (shares w s) -> (forall t, token_at w source t -> t_native t = false) ->
  st_pool_mint s <> st_token_a_mint s -> st_pool_mint s <> st_token_b_mint s ->
  st_pool_fee_account s = source \/ owner_withdraw_fee_num (st_fees s) = 0 ->
  let accounts := pool :: authority :: user :: st_pool_mint s :: source :: st_token_a s :: st_token_b s
                    :: dest_a :: dest_b :: st_pool_fee_account s :: TOKEN_PROGRAM_ID :: rest in
  let A := balance w (st_token_a s) in let B := balance w (st_token_b s) in
  let half := worth w s p / 2 in
  (exists w', exec e signers w (WithdrawAll accounts (shares w s) ma mb) = Ok w') <->
  dest_a <> st_token_a s /\ dest_b <> st_token_b s /\ 0 < shares w s /\ half <= u64_max /\
  ~ (A = 1 /\ B = 0) /\ ~ (B = 1 /\ A < p) /\ ma <= Z.min A half /\ mb <= Z.min B (half / p) /\
  (0 < A -> accepts w dest_a (st_token_a_mint s) (Z.min A half)) /\
  (0 < B -> accepts w dest_b (st_token_b_mint s) (Z.min B (half / p))).
Proof.
  intros He Hr Hsig Hp Hpda Hl Hma Hmb Hus Hsu Hsa Ta Tb Wl Nt Na Nb Fee accounts A B half.
  pose proof (reachable_inv _ _ He Hr) as I. pose proof (price_config _ _ _ _ _ (proj2 I _ _ Hp) Hl) as (U & P).
  pose proof (supply_u64 w (st_pool_mint s) (proj1 I)) as US. fold (shares w s) in US.
  pose proof (balance_u64 w (st_token_a s) (proj1 I)) as UA. pose proof (balance_u64 w (st_token_b s) (proj1 I)) as UB.
  fold A in UA. fold B in UB.
  unfold accounts. rewrite (withdraw_all_live _ _ _ _ _ _ _ _ _ _ rest _ _ _ _ He Hr Hsig Hp Hpda US Hma Hmb Hus Hsu Hsa Ta Tb Wl Nt Na Nb).
  cbv zeta. fold A B. fold (shares w s). rewrite Hl.
  destruct (half_none A B p P (proj1 UA) (proj1 UB)) as (ZA & ZB). cbv zeta in ZA, ZB. change (pool_value p A B / 2) with half in ZA, ZB.
  assert (H0 : 0 <= half) by (unfold half, worth, pool_value; apply Z.div_pos; [fold A B; unfold is_u64 in *; nia | lia]).
  assert (H1 : 0 <= half / p <= half) by (split; [apply Z.div_pos; lia | apply Z.div_le_upper_bound; nia]).
  assert (Qt : 0 < shares w s -> half <= u64_max ->
            pool_tokens_to_trading_tokens (ConstantPrice p) (shares w s - 0) (shares w s) A B Floor = Val (half, half / p)).
  { intros S0 Hh. rewrite Z.sub_0_r, cprice_both by assumption. unfold price_both_quote. cbv zeta. change (pool_value p A B / 2) with half.
    assert (shares w s * half <= u128_max) by (unfold is_u64 in US; assert (u64_max * u64_max <= u128_max) by (vm_compute; discriminate); nia).
    rewrite (proj2 (Z.ltb_ge _ _)) by assumption. rewrite (proj2 (Z.eqb_neq _ _)) by lia. rewrite (proj2 (Z.eqb_neq p 0)) by lia.
    cbn [orb]. cbn [round_div]. rewrite (Z.mul_comm _ half), Z.div_mul, Z.div_div by lia.
    rewrite Z.div_mul_cancel_r by lia. reflexivity. }
  assert (Ch : forall ch, st_pool_fee_account s = source /\ ch = 0 \/
      st_pool_fee_account s <> source /\ owner_withdraw_fee (st_fees s) (shares w s) = Val ch -> ch = 0).
  { intros ch [(_ & E) | (N & E)]; [exact E |]. destruct Fee as [F | F]; [contradiction |].
    unfold owner_withdraw_fee, calculate_fee in E. rewrite F in E. cbn in E. congruence. }
  split.
  - intros (Da & Db & _ & ch & sa & sb & Hc & _ & _ & _ & Q & La & Lb & Ma & Mb & Ka & Kb & Aa & Ab).
    apply Ch in Hc. subst ch. rewrite Z.sub_0_r, cprice_both in Q by assumption. unfold price_both_quote in Q. cbv zeta in Q.
    change (pool_value p A B / 2) with half in Q.
    destruct (Z.eqb_spec (shares w s) 0) as [E | NS]; [rewrite orb_true_r in Q; discriminate Q |].
    destruct ((_ || _) || _); [discriminate Q |]. unfold is_u64 in US.
    cbn [round_div] in Q. rewrite (Z.mul_comm _ half), Z.div_mul, Z.div_div in Q by lia.
    rewrite Z.div_mul_cancel_r in Q by lia. injection Q as <- <-.
    split; [exact Da |]. split; [exact Db |]. split; [lia |]. split; [exact La |].
    split; [exact (proj1 ZA Ka) |]. split; [exact (proj1 ZB Kb) |]. split; [exact Ma |]. split; [exact Mb |].
    split; intros L; [apply Aa | apply Ab]; clear - L Ka Kb UA UB H0 H1; unfold is_u64 in *; lia.
  - intros (Da & Db & S0 & Lh & NA & NB & Ma & Mb & Aa & Ab). split; [exact Da |]. split; [exact Db |]. split; [lia |].
    exists 0, half, (half / p). split.
    { destruct (Z.eq_dec (st_pool_fee_account s) source) as [E | N]; [left; auto | right]. split; [exact N |].
      destruct Fee as [F | F]; [contradiction |]. unfold owner_withdraw_fee, calculate_fee. rewrite F. reflexivity. }
    split; [lia |]. split; [lia |]. split; [lia |]. split; [exact (Qt S0 Lh) |].
    split; [exact Lh |]. split; [lia |]. split; [exact Ma |]. split; [exact Mb |].
    split; [exact (proj2 ZA NA) |]. split; [exact (proj2 ZB NB) |].
    split; intros L; [apply Aa | apply Ab]; clear - L; lia.
Qed.

(** Any number of pool tokens, with the withdrawal fee the holder is charged. *)
Lemma fee_exact f n : is_u64 n -> fees_wf f -> proper_fraction (owner_withdraw_fee_num f) (owner_withdraw_fee_den f) ->
  owner_withdraw_fee f n = Val (if (owner_withdraw_fee_num f =? 0) || (n =? 0) then 0
                                else Z.max 1 (n * owner_withdraw_fee_num f / owner_withdraw_fee_den f)).
Proof.
  intros Un Wf Pf. unfold owner_withdraw_fee, calculate_fee.
  assert (U1 : is_u64 (owner_withdraw_fee_num f)) by apply Wf. assert (U2 : is_u64 (owner_withdraw_fee_den f)) by apply Wf.
  revert U1 U2 Pf. generalize (owner_withdraw_fee_num f) (owner_withdraw_fee_den f). clear Wf. intros a d U1 U2 Pf.
  destruct (Z.eqb_spec a 0); [reflexivity |]. destruct (Z.eqb_spec n 0); [reflexivity |]. cbn [orb].
  assert (D : 0 < d) by (unfold proper_fraction, is_u64 in *; lia).
  assert (M : u64_max * u64_max <= u128_max) by (vm_compute; discriminate).
  unfold is_u64 in *. unfold mul_in. rewrite (proj2 (Z.leb_le _ _)) by nia. cbn [obind]. unfold cdiv.
  rewrite (proj2 (Z.eqb_neq d 0)) by lia. cbn [obind].
  pose proof (Z.div_pos (n * a) d ltac:(nia) D). destruct (Z.eqb_spec (n * a / d) 0) as [E | N]; [rewrite E; reflexivity |].
  rewrite Z.max_r by lia. reflexivity.
Qed.

Lemma redeem_some_when e signers w pool authority s user source dest_a dest_b rest n ma mb x p :
  env_ok e -> reachable e w -> signers_ok e signers ->
  pool_at w pool s -> find_pda e pool = Some (authority, st_bump_seed s) -> st_curve s = ConstantPrice p ->
  is_u64 n -> is_u64 ma -> is_u64 mb -> In user signers -> single_signer w user -> single_signer w authority ->
  thawed w (st_token_a s) -> thawed w (st_token_b s) ->
  wallet w source user (st_pool_mint s) x -> (forall t, token_at w source t -> t_native t = false) ->
  st_pool_mint s <> st_token_a_mint s -> st_pool_mint s <> st_token_b_mint s ->
  let accounts := pool :: authority :: user :: st_pool_mint s :: source :: st_token_a s :: st_token_b s
                    :: dest_a :: dest_b :: st_pool_fee_account s :: TOKEN_PROGRAM_ID :: rest in
  let A := balance w (st_token_a s) in let B := balance w (st_token_b s) in
  let num := owner_withdraw_fee_num (st_fees s) in let den := owner_withdraw_fee_den (st_fees s) in
  let fee := if (st_pool_fee_account s =? source) || (num =? 0) || (n =? 0) then 0 else Z.max 1 (n * num / den) in
  let a := Z.min A ((n - fee) * (worth w s p / 2) / shares w s) in
  let b := Z.min B ((n - fee) * (worth w s p / 2) / (p * shares w s)) in
  (exists w', exec e signers w (WithdrawAll accounts n ma mb) = Ok w') <->
  dest_a <> st_token_a s /\ dest_b <> st_token_b s /\ n <= x /\ 0 < shares w s /\ n - fee <= shares w s /\
  (n - fee) * (worth w s p / 2) / shares w s <= u64_max /\
  (0 < A -> 0 < a) /\ (0 < B -> 0 < b) /\ ma <= a /\ mb <= b /\
  (0 < fee -> accepts w (st_pool_fee_account s) (st_pool_mint s) fee) /\
  (0 < A -> accepts w dest_a (st_token_a_mint s) a) /\ (0 < B -> accepts w dest_b (st_token_b_mint s) b).
Proof.
  intros He Hr Hsig Hp Hpda Hl Hn Hma Hmb Hus Hsu Hsa Ta Tb Wl Nt Na Nb accounts A B num den fee a b.
  pose proof (reachable_inv _ _ He Hr) as I. pose proof (price_config _ _ _ _ _ (proj2 I _ _ Hp) Hl) as (U & P).
  destruct (proj2 I _ _ Hp) as (_ & _ & _ & _ & _ & _ & _ & _ & _ & Cf). destruct Cf as (_ & _ & _ & Pf & _).
  destruct (pool_wf _ _ _ (proj1 I) Hp) as [(_ & _ & _ & _ & _ & _ & _ & _ & Hff & _) _].
  pose proof (supply_u64 w (st_pool_mint s) (proj1 I)) as US. fold (shares w s) in US.
  pose proof (balance_u64 w (st_token_a s) (proj1 I)) as UA. pose proof (balance_u64 w (st_token_b s) (proj1 I)) as UB.
  fold A in UA. fold B in UB.
  unfold accounts. rewrite (withdraw_all_live _ _ _ _ _ _ _ _ _ _ rest _ _ _ _ He Hr Hsig Hp Hpda Hn Hma Hmb Hus Hsu Hsa Ta Tb Wl Nt Na Nb).
  cbv zeta. fold A B. fold (shares w s). rewrite Hl. rewrite (fee_exact _ _ Hn Hff Pf). fold num den in Pf |- *.
  assert (Ch : forall ch, st_pool_fee_account s = source /\ ch = 0 \/
      st_pool_fee_account s <> source /\ Val (if (num =? 0) || (n =? 0) then 0 else Z.max 1 (n * num / den)) = Val ch <-> ch = fee).
  { intros ch. unfold fee. destruct (Z.eqb_spec (st_pool_fee_account s) source) as [E | N]; cbn [orb].
    - split; [intros [(_ & X) | (X & _)]; [exact X | contradiction] | intros ->; left; auto].
    - split; [intros [(X & _) | (_ & X)]; [contradiction | congruence] | intros ->; right; auto]. }
  assert (F0 : 0 <= fee <= n).
  { assert (Un : is_u64 num) by apply Hff. unfold is_u64 in *.
    unfold fee. destruct (_ || (n =? 0)) eqn:E; [lia |].
    apply Bool.orb_false_iff in E. destruct E as (E & E2). apply Bool.orb_false_iff in E. destruct E as (_ & E1).
    apply Z.eqb_neq in E1, E2. unfold proper_fraction in Pf.
    assert (n * num / den <= n) by (apply Z.div_le_upper_bound; nia). lia. }
  set (h := worth w s p / 2) in *. set (m := n - fee) in *. set (S := shares w s) in *.
  assert (H0 : 0 <= h) by (unfold h, worth, pool_value; apply Z.div_pos; [fold A B; unfold is_u64 in *; nia | lia]).
  assert (Um : is_u64 m) by (unfold m, is_u64 in *; lia).
  assert (Q : forall sa sb, pool_tokens_to_trading_tokens (ConstantPrice p) m S A B Floor = Val (sa, sb) <->
      m * h <= u128_max /\ 0 < S /\ sa = m * h / S /\ sb = m * h / (p * S)).
  { intros sa sb. rewrite cprice_both by assumption. unfold price_both_quote. cbv zeta. change (pool_value p A B / 2) with h.
    rewrite (proj2 (Z.eqb_neq p 0)) by lia. rewrite Bool.orb_false_r. cbn [round_div]. unfold is_u64 in US.
    destruct (Z.ltb_spec u128_max (m * h)); cbn [orb]; [split; [discriminate | lia] |].
    destruct (Z.eqb_spec S 0) as [E | N]; [split; [discriminate | lia] |].
    rewrite Z.div_div by lia. split; [intros [= <- <-] | intros (_ & _ & -> & ->)]; auto. split; [assumption |]. split; [lia |]. auto. }
  assert (Lb : 0 < S -> 0 <= m * h / (p * S) <= m * h / S).
  { intros S0. unfold is_u64 in *. split; [apply Z.div_pos; nia |]. apply Z.div_le_compat_l; nia. }
  split.
  - intros (Da & Db & Lx & ch & sa & sb & Hc & _ & Ms & Fa & Hq & La & _ & Ma & Mb & Ka & Kb & Aa & Ab).
    apply Ch in Hc. subst ch. fold m in Ms, Hq. apply Q in Hq. destruct Hq as (_ & S0 & -> & ->). specialize (Lb S0).
    change (Z.min B (m * h / (p * S))) with b in Mb, Kb, Ab. change (Z.min A (m * h / S)) with a in Ma, Ka, Aa.
    assert (P1 : 0 < A -> 0 < a) by (clear - Ka UA Lb; unfold a, is_u64 in *; lia).
    assert (P2 : 0 < B -> 0 < b) by (clear - Kb UB Lb; unfold b, is_u64 in *; lia).
    repeat (split; [first [assumption | auto] |]); auto.
  - intros (Da & Db & Lx & S0 & Ms & La & P1 & P2 & Ma & Mb & Fa & Aa & Ab). specialize (Lb S0).
    split; [exact Da |]. split; [exact Db |]. split; [exact Lx |]. exists fee, (m * h / S), (m * h / (p * S)). fold m.
    split; [apply Ch; reflexivity |]. split; [lia |]. split; [exact Ms |]. split; [exact Fa |]. split.
    { apply Q. split; [| auto]. pose proof (Z.div_mod (m * h) S ltac:(lia)). pose proof (Z.mod_pos_bound (m * h) S S0).
      assert (u64_max * u64_max + u64_max <= u128_max) by (vm_compute; discriminate). unfold is_u64 in US. nia. }
    split; [exact La |]. split; [lia |].
    change (Z.min B (m * h / (p * S))) with b. change (Z.min A (m * h / S)) with a.
    split; [exact Ma |]. split; [exact Mb |].
    split; [clear - P1 UA; unfold is_u64 in *; lia |]. split; [clear - P2 UB; unfold is_u64 in *; lia |].
    split; intros L; [apply Aa; unfold a in L | apply Ab; unfold b in L]; clear - L; lia.
Qed.

(** In the two exceptional states no number of pool tokens can be redeemed for both tokens. *)
Lemma redeem_none e signers w accounts n ma mb s p : env_ok e -> reachable e w -> signers_ok e signers ->
  pool_at w (nth 0 accounts 0) s -> st_curve s = ConstantPrice p ->
  let A := balance w (st_token_a s) in let B := balance w (st_token_b s) in
  A = 1 /\ B = 0 \/ B = 1 /\ A < p ->
  ~ exists w', exec e signers w (WithdrawAll accounts n ma mb) = Ok w'.
Proof.
  intros He R Sg Hp Hl A B X (w' & H). pose proof (reachable_inv _ _ He R) as I. pose proof (proj1 I) as W.
  pose proof (price_config _ _ _ _ _ (proj2 I _ _ Hp) Hl) as (U & P).
  apply withdraw_all_exact in H; [| exact W].
  destruct H as (pool' & au' & user' & source' & dest_a' & dest_b' & rest' & s' & ta' & tb' & pm' & charge & sha & shb &
      -> & Un & _ & _ & _ & Hp' & _ & _ & _ & _ & Ta' & Tb' & Pm' & Hch & Hcn & Hq & Ha & Hb & Hlim).
  cbn [nth] in *. destruct (pool_fun _ _ _ _ Hp Hp'). cbv zeta in Hlim. destruct Hlim as (_ & _ & Ka & Kb & Hc).
  destruct (pool_wf _ _ _ W Hp) as [(_ & _ & _ & _ & _ & _ & _ & _ & Hff & _) _].
  assert (M : n - charge <= m_supply pm').
  { unfold if_any in Hc at 1. destruct (Z.ltb_spec 0 charge) as [L | L]; cbn [app calls_ok] in Hc.
    - destruct Hc as (w1 & C1 & w2 & C2 & _). cbn [call_ok] in C1, C2.
      destruct C1 as (t1 & t2 & t1' & T1 & T2 & _ & _ & _ & _ & D1). destruct C2 as (mt & ts & ts' & M2 & _ & _ & _ & _ & _ & L2 & _).
      destruct D1 as [(_ & ->) | (_ & _ & ->)].
      + destruct (mint_fun _ _ _ _ Pm' M2). exact L2.
      + assert (mint_at w (st_pool_mint s) mt).
        { destruct M2 as (O & D). rewrite with2_other in O, D; [split; assumption | ..];
            (intros E; first [rewrite <- E in T1; exact (token_not_mint _ _ _ _ T1 Pm') | rewrite <- E in T2; exact (token_not_mint _ _ _ _ T2 Pm')]). }
        destruct (mint_fun _ _ _ _ Pm' H). exact L2.
    - destruct Hc as (w2 & C2 & _). cbn [call_ok] in C2. destruct C2 as (mt & ts & ts' & M2 & _ & _ & _ & _ & _ & L2 & _).
      destruct (mint_fun _ _ _ _ Pm' M2). exact L2. }
  assert (C0 : 0 <= charge).
  { destruct Hch as [(_ & ->) | (_ & E)]; [lia |]. exact (withdraw_fee_bound _ _ _ Hff (proj1 Un) E). }
  subst A B. rewrite (token_balance _ _ _ Ta'), (token_balance _ _ _ Tb') in X.
  pose proof (token_u64 _ _ _ W Ta') as UA. pose proof (token_u64 _ _ _ W Tb') as UB. pose proof (mint_u64 _ _ _ W Pm') as US.
  assert (Um : is_u64 (n - charge)) by (unfold is_u64 in *; lia).
  rewrite Hl, cprice_both in Hq by assumption.
  revert X Hq Ka Kb UA UB US Um M. generalize (t_amount ta') (t_amount tb') (m_supply pm') (n - charge). clear - P.
  intros A B S m X Hq Ka Kb UA UB US Um M.
  destruct (half_none A B p P (proj1 UA) (proj1 UB)) as (ZA & ZB). cbv zeta in ZA, ZB.
  unfold price_both_quote in Hq. cbv zeta in Hq.
  destruct (Z.eqb_spec S 0) as [E | NS]; [rewrite orb_true_r in Hq; discriminate Hq |].
  destruct ((_ || _) || _); [discriminate Hq |]. cbn [round_div] in Hq. injection Hq as <- <-.
  set (h := pool_value p A B / 2) in *.
  assert (H0 : 0 <= h) by (unfold h, pool_value; apply Z.div_pos; [unfold is_u64 in *; nia | lia]).
  unfold is_u64 in *.
  assert (La : 0 <= m * h / S <= h) by (split; [apply Z.div_pos; nia | apply Z.div_le_upper_bound; nia]).
  assert (Lb : 0 <= m * h / p / S <= h / p).
  { split; [apply Z.div_pos; [apply Z.div_pos; nia | lia] |]. rewrite Z.div_div, (Z.mul_comm p), <- Z.div_div by lia.
    apply Z.div_le_mono; lia. }
  destruct X as [X | X].
  - apply (proj1 ZA); [| exact X]. intros Z0. apply Ka. lia.
  - apply (proj1 ZB); [| exact X]. intros Z0. apply Kb. lia.
Qed.

(** 999 999 tokens A and a single token B at a price of 1 000 000: worth nearly two million, and not
    to be had with this instruction.  The second pool has a token B more and pays out. *)
Definition rd_w0 (b : Z) : world := of_list
  [ (300, zeroed); (301, tok 201 (auth 300) 999999); (302, tok 202 (auth 300) b); (403, a_mint (auth 300) 0);
    (303, tok 403 900 0); (304, tok 403 901 0);
    (111, tok 201 901 0); (112, tok 202 901 0); (201, a_mint 999 0); (202, a_mint 999 0) ].
Definition rd_fees : fees := mk_fees 0 1 0 1 0 1 0 1.
Definition rd_init : instr :=
  InitConstantPrice [300; auth 300; 301; 302; 403; 303; 304; TOKEN_PROGRAM_ID] rd_fees 1000000.
Definition rd_w1 (b : Z) : world := run1 [300] (rd_w0 b) rd_init.
Definition rd_pool : swap_state :=
  mk_swap_state true 255 TOKEN_PROGRAM_ID 301 302 403 201 202 303 rd_fees (ConstantPrice 1000000).
Definition rd_accounts : list Z := [300; auth 300; 901; 403; 304; 301; 302; 111; 112; 303; TOKEN_PROGRAM_ID].

Lemma rd_genesis : genesis_ok (rd_w0 1).
Proof.
  split.
  - intros k. apply (of_list_all _ (fun _ a => account_wf a)); [intros ?; exact (Forall_nil _) |].
    repeat (apply Forall_cons; [| try apply Forall_nil]);
      cbn [snd]; unfold account_wf, zeroed, tok, a_mint; cbn [a_data]; unfold is_u64, u64_max, is_pubkey;
      try (cbn; vm_compute; intuition congruence).
    all: apply Forall_forall; intros x Hx; apply repeat_spec in Hx; subst; unfold is_u8; lia.
  - intros k. apply (of_list_all _ (fun _ a => a_owner a = PROGRAM_ID -> ~ versioned (a_data a))).
    + intros _ H. discriminate H.
    + repeat (apply Forall_cons; [| try apply Forall_nil]); cbn [snd]; intros H; try discriminate H; intros (l & E); discriminate E.
Qed.
Lemma rd_reachable : reachable ex_env (rd_w1 1).
Proof.
  apply (reachable_step _ (rd_w0 1) (Instruction [300] rd_init)).
  - exists (rd_w0 1), []. split; [apply rd_genesis | constructor].
  - apply ex_run; [apply ex_signers; lia | unfold rd_init; keys_ok | reflexivity | vm_compute; reflexivity].
Qed.

Lemma redeem_stuck : exists e signers w pool authority s user source dest_a dest_b p,
  env_ok e /\ reachable e w /\ signers_ok e signers /\ pool_at w pool s /\
  find_pda e pool = Some (authority, st_bump_seed s) /\ st_curve s = ConstantPrice p /\ In user signers /\
  wallet w source user (st_pool_mint s) (shares w s) /\ 0 < shares w s /\
  accepts w dest_a (st_token_a_mint s) (balance w (st_token_a s)) /\
  accepts w dest_b (st_token_b_mint s) (balance w (st_token_b s)) /\ worth w s p = 1999999 /\
  forall rest n, ~ exists w', exec e signers w (WithdrawAll
    (pool :: authority :: user :: st_pool_mint s :: source :: st_token_a s :: st_token_b s
      :: dest_a :: dest_b :: st_pool_fee_account s :: TOKEN_PROGRAM_ID :: rest) n 0 0) = Ok w'.
Proof.
  exists ex_env, [901], (rd_w1 1), 300, (auth 300), rd_pool, 901, 304, 111, 112, 1000000.
  assert (Hp : pool_at (rd_w1 1) 300 rd_pool) by (split; vm_compute; reflexivity).
  split; [exact ex_env_ok |]. split; [exact rd_reachable |]. split; [apply ex_signers; lia |]. split; [exact Hp |].
  split; [vm_compute; reflexivity |]. split; [reflexivity |]. split; [now left |].
  split. { eexists; split; [split; vm_compute; reflexivity | vm_compute; repeat split; discriminate]. }
  split; [vm_compute; reflexivity |].
  split. { eexists; split; [split; vm_compute; reflexivity | vm_compute; repeat split; discriminate]. }
  split. { eexists; split; [split; vm_compute; reflexivity | vm_compute; repeat split; discriminate]. }
  split; [vm_compute; reflexivity |].
  intros rest n. eapply redeem_none; [exact ex_env_ok | exact rd_reachable | apply ex_signers; lia | exact Hp | reflexivity |].
  right. vm_compute. split; reflexivity.
Qed.

(** The same at a price of 999 999, without and with a withdrawal fee of a tenth. *)
Definition rc_fees (num : Z) : fees := mk_fees 0 1 0 1 num 10 0 1.
Definition rc_w1 (num b : Z) : world :=
  run1 [300] (rd_w0 b) (InitConstantPrice [300; auth 300; 301; 302; 403; 303; 304; TOKEN_PROGRAM_ID] (rc_fees num) 999999).
