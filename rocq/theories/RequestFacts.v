(** What can go wrong with a request that names the right accounts. *)
From Verif Require Import Ints Tactics Fees LinearCurve ConstantPrice SwapCurve Codec Token Processor Api History
  Spec LedgerSpec CallSpec LiveSpec QuoteSpec ErrorSpec RequestSpec CurveFacts LinearFacts SwapFacts LinearProps CodecFacts TokenFacts ProcFacts AmountFacts
  EffectFacts TradeFacts CreateFacts PermFacts HistoryFacts LiquidityFacts VaultFacts ExactFacts LedgerLinear
  LiveFacts LiveWithdraw LiveDeposit LiveSingle QuoteFacts QuoteCurves ErrorFacts ErrorProps.

(** ** Quotes of pools that can exist *)

Lemma proper_fee amount num den : is_u64 amount -> is_u64 num -> is_u64 den -> proper_fraction num den ->
  exists fee, fee_of amount num den = Val fee /\ 0 <= fee <= amount.
Proof.
  unfold is_u64, proper_fraction, fee_of. intros Ha Hn Hd Hp.
  destruct (Z.eqb_spec num 0) as [E | Nn]; cbn [orb]; [eexists; split; [reflexivity | lia] |].
  destruct (Z.eqb_spec amount 0) as [E | Na]; cbn [orb]; [eexists; split; [reflexivity | lia] |].
  assert (L : num < den) by (destruct Hp as [[? _] | ?]; [contradiction | assumption]).
  assert (M : amount * num <= u128_max).
  { assert (amount * num <= u64_max * u64_max) by (apply Z.mul_le_mono_nonneg; lia). unfold u64_max, u128_max in *. lia. }
  destruct (Z.ltb_spec u128_max (amount * num)); [lia |]. cbn [orb]. destruct (Z.eqb_spec den 0); [lia |].
  eexists. split; [reflexivity |].
  assert (0 <= amount * num / den <= amount).
  { split; [apply Z.div_pos; nia |]. apply Z.div_le_upper_bound; [lia |]. rewrite Z.mul_comm. apply Z.mul_le_mono_nonneg_r; lia. }
  lia.
Qed.

Lemma up_div_part x y n : 0 <= n -> 0 <= x <= y -> 0 < y -> 0 <= up_div (n * x) y <= n.
Proof.
  intros Hn Hx Hy. unfold up_div.
  assert (0 <= n * x <= n * y) by (split; [apply Z.mul_nonneg_nonneg; lia | apply Z.mul_le_mono_nonneg_l; lia]).
  destruct (Z.ltb_spec (n * x) y).
  - destruct (Z.leb_spec y (2 * (n * x))); [| lia]. assert (n <> 0) by (intros ->; lia). lia.
  - split; [apply Z.div_pos; lia |]. apply Z.lt_succ_r. apply Z.div_lt_upper_bound; [lia |]. rewrite Z.mul_succ_r. lia.
Qed.

(** The owner's fee of a trade with a constant-price pool can always be converted. *)
Lemma owner_charge p ain ss sd d f r n : is_u64 p -> 0 < p -> fees_wf f ->
  proper_fraction (trade_fee_num f) (trade_fee_den f) ->
  is_u64 ain -> is_u64 ss -> is_u64 sd -> is_u64 n ->
  curve_swap (ConstantPrice p) ain ss sd d f = Val r ->
  exists minted, curve_withdraw_single (ConstantPrice p) (owner_fee r)
      (side_a d (new_swap_source_amount r) (new_swap_destination_amount r))
      (side_b d (new_swap_source_amount r) (new_swap_destination_amount r)) n d f = Val minted /\ 0 <= minted <= u64_max.
Proof.
  intros Hp Pp Hf Hpf Ha Hss Hsd Hn H.
  pose proof (curve_swap_bounds (ConstantPrice p) _ _ _ _ _ _ Hp Hf Ha Hss Hsd H) as (B1 & B2 & B3 & B4 & B5 & B6 & _).
  assert (Uo : is_u64 (owner_fee r)) by (unfold is_u64 in *; lia).
  destruct (half_fee_both (ConstantPrice p) (owner_fee r)
      (side_a d (new_swap_source_amount r) (new_swap_destination_amount r))
      (side_b d (new_swap_source_amount r) (new_swap_destination_amount r)) n d f Hf Uo) as [_ ->].
  unfold after_half_fee. destruct (Z.eqb_spec (owner_fee r) 0) as [E | N]; [exists 0; unfold u64_max; split; [reflexivity | lia] |].
  assert (Uh : is_u64 (Z.max 1 (owner_fee r / 2))).
  { unfold is_u64 in *. assert (0 <= owner_fee r / 2 <= owner_fee r) by (split; [apply Z.div_pos; lia | apply Z.div_le_upper_bound; lia]). lia. }
  assert (Lh : Z.max 1 (owner_fee r / 2) <= owner_fee r).
  { assert (owner_fee r / 2 <= owner_fee r) by (apply Z.div_le_upper_bound; lia). lia. }
  destruct (proper_fee _ _ _ Uh (proj1 Hf) (proj1 (proj2 Hf)) Hpf) as (fee & -> & Bf).
  destruct (Z.ltb_spec (owner_fee r) fee); [lia |].
  destruct (cprice_singles p (owner_fee r - fee)
      (side_a d (new_swap_source_amount r) (new_swap_destination_amount r))
      (side_b d (new_swap_source_amount r) (new_swap_destination_amount r)) n d) as [_ ->];
    [exact Hp | | | | exact Hn |]; try (unfold is_u64, is_u128, u64_max, u128_max in *; destruct d; cbn [side_a side_b]; lia).
  unfold price_single_quote.
  set (V := pool_value _ _ _). set (v := value_of _ _ _).
  assert (HV : 0 <= v <= V /\ 0 < V).
  { unfold V, v, pool_value, value_of. unfold is_u64 in *. destruct d; cbn [side_a side_b].
    - assert (0 <= p * new_swap_destination_amount r) by (apply Z.mul_nonneg_nonneg; lia). lia.
    - assert (p * (owner_fee r - fee) <= p * new_swap_source_amount r) by (apply Z.mul_le_mono_nonneg_l; lia).
      assert (0 <= p * (owner_fee r - fee)) by (apply Z.mul_nonneg_nonneg; lia).
      assert (0 < p * new_swap_source_amount r) by (apply Z.mul_pos_pos; lia). lia. }
  destruct (Z.eqb_spec V 0); [lia |]. cbn [round_div].
  pose proof (up_div_part v V n ltac:(apply Hn) ltac:(lia) ltac:(lia)) as U. unfold is_u64 in Hn.
  destruct (Z.leb_spec (up_div (n * v) V) u128_max); [| unfold u64_max, u128_max in *; lia].
  eexists. split; [reflexivity |]. lia.
Qed.

(** Only linear pools have trades that abort. *)
Lemma swap_aborts e f c ain ss sd d : config_ok e f c -> fees_wf f -> is_u64 ain -> is_u64 ss -> is_u64 sd ->
  curve_swap c ain ss sd d f = Panic ->
  exists l k, c = LinearPrice l /\ 1 <= k /\ (2 ^ 64 - 1) * 4 ^ k < disc l (side_a d ss sd) < 2 ^ 64 * 4 ^ k.
Proof.
  intros (_ & _ & _ & _ & _ & Cf) Hf Ha Hss Hsd H. unfold curve_swap in H.
  assert (X : exists y, swap_without_fees c y ss sd d = Panic /\ (forall l, c = LinearPrice l -> y = ain)).
  { destruct (fees_exact f ain Hf ltac:(apply Ha)) as (E1 & E2 & _). 
    destruct (trading_fee f ain) as [tf | |] eqn:T1; cbn [obind] in H; [| discriminate | destruct (calculate_fee_no_panic _ _ _ T1)].
    destruct (owner_trading_fee f ain) as [of | |] eqn:T2; cbn [obind] in H; [| discriminate | destruct (calculate_fee_no_panic _ _ _ T2)].
    destruct (add_in u128_max tf of) as [tt | |] eqn:T3; cbn [obind] in H; [| discriminate | destruct (add_in_no_panic _ _ _ T3)].
    destruct (csub ain tt) as [y | |] eqn:T4; cbn [obind] in H; [| discriminate | destruct (csub_no_panic _ _ T4)].
    exists y. split.
    - destruct (swap_without_fees c y ss sd d) as [[s0 d0] | |] eqn:T5; cbn [obind] in H; [| discriminate | reflexivity].
      destruct (add_in u128_max s0 tt) as [s1 | |] eqn:T6; cbn [obind] in H; [| discriminate | destruct (add_in_no_panic _ _ _ T6)].
      destruct (add_in u128_max ss s1) as [s2 | |] eqn:T7; cbn [obind] in H; [| discriminate | destruct (add_in_no_panic _ _ _ T7)].
      destruct (csub sd d0) as [d1 | |] eqn:T8; cbn [obind] in H; [discriminate | discriminate | destruct (csub_no_panic _ _ T8)].
    - intros l ->. destruct Cf as (-> & _). unfold fee_of, linear_fees in E1, E2.
      cbn [trade_fee_num owner_trade_fee_num Z.eqb orb] in E1, E2.
      injection E1 as ->. injection E2 as ->. apply csub_val in T4. destruct T4 as [-> _].
      apply add_in_val in T3. destruct T3 as [-> _]. lia. }
  destruct X as (y & X & Y).
  pose proof (swap_no_panic c y ss sd d) as NP. destruct c as [| p | amp | o | l]; try contradiction.
  specialize (Y l eq_refl). subst y. exists l. cbn [swap_without_fees] in X.
  destruct Cf as (_ & Wf & N1 & N2 & N3 & N4).
  apply linear_panic_iff in X; try assumption; [destruct X as (k & X); exists k; auto |].
  apply linear_validate_iff; auto.
Qed.

Lemma payee_accepts w k m x : payee w k m -> balance w k + x <= u64_max -> accepts w k m x.
Proof. intros (t & T & M & F) L. rewrite (token_balance _ _ _ T) in L. exists t. auto. Qed.

Lemma not_foreign w ks : Forall (fun k => a_owner (w k) = TOKEN_PROGRAM_ID) ks -> ~ foreign w TOKEN_PROGRAM_ID ks.
Proof. intros F (k & Hk & N). rewrite Forall_forall in F. exact (N (F _ Hk)). Qed.
Lemma no_token_false w ks : Forall (fun k => exists t, token_at w k t) ks -> ~ no_token w ks.
Proof. intros F (k & Hk & N). rewrite Forall_forall in F. destruct (F _ Hk) as (t & _ & T). exact (N _ T). Qed.

(** ** Trades *)
Lemma swap_request e signers w pool authority s user source ssrc sdst dest rest ain mout x :
  env_ok e -> reachable e w -> signers_ok e signers ->
  pool_at w pool s -> find_pda e pool = Some (authority, st_bump_seed s) ->
  is_u64 ain -> is_u64 mout -> In user signers -> single_signer w user -> single_signer w authority ->
  (ssrc = st_token_a s /\ sdst = st_token_b s \/ ssrc = st_token_b s /\ sdst = st_token_a s) ->
  thawed w ssrc -> thawed w sdst ->
  wallet w source user (vault_mint_of s ssrc) x -> payee w dest (vault_mint_of s sdst) -> dest <> sdst ->
  feeless (st_fees s) \/
    st_pool_mint s <> st_token_a_mint s /\ st_pool_mint s <> st_token_b_mint s /\
    payee w (st_pool_fee_account s) (st_pool_mint s) /\ (forall t, token_at w (st_pool_fee_account s) t -> t_native t = false) ->
  let accounts := pool :: authority :: user :: source :: ssrc :: sdst :: dest
                    :: st_pool_mint s :: st_pool_fee_account s :: TOKEN_PROGRAM_ID :: rest in
  let d := if ssrc =? st_token_a s then AtoB else BtoA in
  let quote := curve_swap (st_curve s) ain (balance w ssrc) (balance w sdst) d (st_fees s) in
  match exec e signers w (Swap accounts ain mout) with
  | Ok _ => True
  | Err (ESwap ZeroTradingTokens) => quote = Non
  | Err (ESwap ExceededSlippage) => exists r, quote = Val r /\ destination_amount_swapped r < mout
  | Err EToken => exists r, quote = Val r /\ mout <= destination_amount_swapped r /\
      (x < source_amount_swapped r \/
       u64_max < balance w ssrc + source_amount_swapped r \/ u64_max < balance w dest + destination_amount_swapped r \/
       exists minted, 0 < minted /\
         curve_withdraw_single (st_curve s) (owner_fee r)
           (side_a d (new_swap_source_amount r) (new_swap_destination_amount r))
           (side_b d (new_swap_source_amount r) (new_swap_destination_amount r))
           (supply w (st_pool_mint s)) d (st_fees s) = Val minted /\
         (u64_max < balance w (st_pool_fee_account s) + minted \/ u64_max < supply w (st_pool_mint s) + minted))
  | Err EPanic => exists l k, st_curve s = LinearPrice l /\ 1 <= k /\
      (2 ^ 64 - 1) * 4 ^ k < disc l (balance w (st_token_a s)) < 2 ^ 64 * 4 ^ k
  | Err _ => False
  end.
Proof.
  intros He Hr Hsig Hp Hpda Hain Hmout Hus Hsu Hsa Hside Ta Tb Hwal Hpay Nd Hfm accounts d quote.
  pose proof (swap_live e signers w pool authority s user source ssrc sdst dest rest ain mout x He Hr Hsig Hp Hpda Hain Hmout
    Hus Hsu Hsa Hside Ta Tb Hwal ltac:(destruct Hfm as [? | (? & ? & _)]; auto)) as Live.
  cbv zeta in Live. fold accounts d in Live. fold quote in Live.
  pose proof (reachable_inv _ _ He Hr) as [Hwf Hok]. pose proof (Hok _ _ Hp) as Hpo.
  pose proof (vaults_apart _ _ _ _ Hpo) as Nv.
  destruct Hpo as (au & Hf & Htp & Va & Vb & Nm & Nfa & Nfb & (pm & Pm & Pa & Pf) & Cf).
  assert (au = authority) by congruence. subst au.
  destruct (pool_wf _ _ _ Hwf Hp) as [(_ & _ & _ & _ & _ & _ & _ & _ & Hff & Hcf) _].
  assert (Hcr : create_pda e pool (st_bump_seed s) = Some authority) by (apply (proj1 He); exact Hf).
  pose proof (balance_u64 w ssrc Hwf) as U1. pose proof (balance_u64 w sdst Hwf) as U2. pose proof (mint_u64 _ _ _ Hwf Pm) as Um.
  assert (Nss : ssrc <> sdst) by (destruct Hside as [[-> ->] | [-> ->]]; auto).
  assert (Sa : side_a d (balance w ssrc) (balance w sdst) = balance w (st_token_a s)).
  { unfold d. destruct Hside as [[-> ->] | [-> ->]]; [rewrite Z.eqb_refl; reflexivity |].
    destruct (Z.eqb_spec (st_token_b s) (st_token_a s)); [congruence | reflexivity]. }
  destruct Ta as (ta & Ta & Fa). destruct Tb as (tb & Tb & Fb).
  assert (Nsrc : source <> ssrc).
  { destruct Hwal as (ts & Ts & Ow & _). intros E. rewrite E in Ts.
    assert (Nuser : user <> authority) by (intros E'; apply (Hsig user Hus); exists pool, (st_bump_seed s); rewrite E'; exact Hcr).
    destruct Va as (va & Tva & Oa & _). destruct Vb as (vb & Tvb & Ob & _).
    destruct Hside as [[E1 _] | [E1 _]]; rewrite E1 in Ts; [rewrite (token_fun _ _ _ _ Ts Tva) in Ow | rewrite (token_fun _ _ _ _ Ts Tvb) in Ow]; congruence. }
  assert (Charge : forall r, quote = Val r -> exists minted, 0 <= minted <= u64_max /\
    curve_withdraw_single (st_curve s) (owner_fee r)
           (side_a d (new_swap_source_amount r) (new_swap_destination_amount r))
           (side_b d (new_swap_source_amount r) (new_swap_destination_amount r))
           (supply w (st_pool_mint s)) d (st_fees s) = Val minted).
  { intros r Hq. destruct Cf as (_ & Pf1 & _ & _ & _ & Cf). destruct (st_curve s) as [| p | amp | o | l]; try contradiction.
    - destruct Cf as [Hp64 Hp0]. rewrite (mint_supply _ _ _ Pm).
      destruct (owner_charge p ain _ _ d (st_fees s) r (m_supply pm) Hp64 Hp0 Hff Pf1 Hain U1 U2 Um Hq) as (minted & E & B).
      exists minted. split; [exact B | exact E].
    - destruct Cf as (Hfe & _). exists 0. split; [unfold u64_max; lia |].
      apply feeless_swap in Hq; [| rewrite Hfe; exact linear_feeless | assumption].
      destruct Hq as (_ & _ & _ & _ & _ & _ & _ & E). unfold curve_withdraw_single. rewrite E. reflexivity. }
  destruct (exec e signers w (Swap accounts ain mout)) as [w' | err] eqn:X; [exact I |].
  apply swap_error with (s := s) in X; [| exact Hp | exact Htp].
  unfold swap_fault, accounts in X. cbv zeta in X. fold d in X.
  assert (Qu : forall q, (exists ta0 tb0, token_at w ssrc ta0 /\ token_at w sdst tb0 /\
    curve_swap (st_curve s) ain (t_amount ta0) (t_amount tb0) d (st_fees s) = q) -> quote = q).
  { intros q (ta0 & tb0 & Ta0 & Tb0 & Hq). unfold quote. rewrite (token_balance _ _ _ Ta0), (token_balance _ _ _ Tb0). exact Hq. }
  assert (Qc : forall r q, (exists pm, mint_at w (st_pool_mint s) pm /\ curve_withdraw_single (st_curve s) (owner_fee r)
           (side_a d (new_swap_source_amount r) (new_swap_destination_amount r))
           (side_b d (new_swap_source_amount r) (new_swap_destination_amount r))
           (m_supply pm) d (st_fees s) = q) -> curve_withdraw_single (st_curve s) (owner_fee r)
           (side_a d (new_swap_source_amount r) (new_swap_destination_amount r))
           (side_b d (new_swap_source_amount r) (new_swap_destination_amount r))
           (supply w (st_pool_mint s)) d (st_fees s) = q).
  { intros r q (pm0 & Pm0 & Hq). rewrite (mint_supply _ _ _ Pm0). exact Hq. }
  destruct err as [er | | | | | | | | |]; try exact X.
  - destruct er; try exact X.
    all: try (exfalso; congruence).
    all: try (exfalso; destruct X as [X | X]; congruence || (destruct X; destruct Hside as [[? ?] | [? ?]]; congruence)).
    + exact (X pm (proj2 Pm)).
    + apply (no_token_false w [ssrc; sdst]); [| exact X]. repeat constructor; eauto.
    + destruct X as (r & Hq & L). exists r. split; [apply Qu; exact Hq | exact L].
    + apply Qu. exact X.
    + destruct X as (r & Hq & Hc). apply Qu in Hq. apply Qc in Hc. destruct (Charge _ Hq) as (minted & _ & E). congruence.
    + destruct X as (r & Hq & _ & B). apply Qu in Hq.
      pose proof (curve_swap_bounds _ _ _ _ _ _ _ Hcf Hff Hain U1 U2 Hq) as (B1 & B2 & B3 & B4 & _).
      destruct (Charge _ Hq) as (minted & Bm & E).
      destruct B as [B | [B | (m' & Hc & B)]]; [unfold is_u64 in *; lia | unfold is_u64 in *; lia |].
      apply Qc in Hc. rewrite E in Hc. injection Hc as <-. lia.
    + destruct X as [X | X]; [congruence |]. apply (not_foreign w [ssrc; sdst; st_pool_mint s]); [| exact X].
      repeat constructor; [exact (proj1 Ta) | exact (proj1 Tb) | exact (proj1 Pm)].
  - exact (X Hus).
  - assert (Q : exists r, quote = Val r /\ mout <= destination_amount_swapped r).
    { destruct X as (r & Hq & L & _). exists r. auto. }
    clear X. destruct Q as (r & Hq & L). exists r. split; [exact Hq |]. split; [exact L |].
    destruct (Charge _ Hq) as (minted & Bm & E).
    destruct (Z_lt_le_dec x (source_amount_swapped r)) as [G | G1]; [left; exact G |]. right.
    destruct (Z_lt_le_dec u64_max (balance w ssrc + source_amount_swapped r)) as [G | G2]; [left; exact G |]. right.
    destruct (Z_lt_le_dec u64_max (balance w dest + destination_amount_swapped r)) as [G | G3]; [left; exact G |]. right.
    exists minted.
    destruct (Z_lt_le_dec 0 minted) as [G4 | G4].
    + split; [exact G4 |]. split; [exact E |].
      destruct (Z_lt_le_dec u64_max (balance w (st_pool_fee_account s) + minted)) as [G | G5]; [left; exact G |].
      destruct (Z_lt_le_dec u64_max (supply w (st_pool_mint s) + minted)) as [G | G6]; [right; exact G |].
      exfalso. destruct (proj2 Live) as (w' & Y); [| discriminate Y].
      split; [exact Nd |]. exists r, minted. repeat (split; [assumption |]).
      split; [apply payee_accepts; assumption |]. split; [exact E |]. intros _.
      destruct Hfm as [Hfl | (_ & _ & Hpf & Hnn)].
      * exfalso. apply feeless_swap in Hq; [| assumption | assumption].
        destruct Hq as (_ & _ & _ & _ & _ & _ & _ & E0). unfold curve_withdraw_single in E. rewrite E0 in E.
        injection E as <-. exact (Z.lt_irrefl _ G4).
      * split; [apply payee_accepts; assumption |]. split; assumption.
    + exfalso. destruct (proj2 Live) as (w' & Y); [| discriminate Y].
      split; [exact Nd |]. exists r, minted. repeat (split; [assumption |]).
      split; [apply payee_accepts; assumption |]. split; [exact E |]. intros L0. clear - L0 G4. lia.
  - destruct X as (y & [<- | [<- | []]] & Ny); [exact (Ny Hain) | exact (Ny Hmout)].
  - rewrite <- Sa. destruct X as [Hq | (r & Hq & Hc)]; apply Qu in Hq.
    + exact (swap_aborts e (st_fees s) (st_curve s) ain _ _ d Cf Hff Hain U1 U2 Hq).
    + apply Qc in Hc. destruct (Charge _ Hq) as (minted & _ & E). congruence.
Qed.

(** ** Two-sided deposits *)
Lemma both_no_abort e f c n m a b r : config_ok e f c -> is_u64 n -> is_u64 m -> is_u64 a -> is_u64 b ->
  pool_tokens_to_trading_tokens c n m a b r <> Panic.
Proof.
  intros (_ & _ & _ & _ & _ & Cf) Hn Hm Ha Hb. destruct c as [| p | amp | o | l]; try contradiction.
  - destruct Cf as [Hp _]. rewrite cprice_both by assumption. unfold price_both_quote. cbv zeta.
    destruct ((u128_max <? n * (pool_value p a b / 2)) || (m =? 0) || (p =? 0)); discriminate.
  - discriminate.
Qed.

Lemma deposit_all_request e signers w pool authority s user source_a source_b dest rest n ma mb xa xb :
  env_ok e -> reachable e w -> signers_ok e signers ->
  pool_at w pool s -> find_pda e pool = Some (authority, st_bump_seed s) ->
  is_u64 n -> is_u64 ma -> is_u64 mb -> In user signers -> single_signer w user -> single_signer w authority ->
  thawed w (st_token_a s) -> thawed w (st_token_b s) ->
  wallet w source_a user (st_token_a_mint s) xa -> wallet w source_b user (st_token_b_mint s) xb ->
  payee w dest (st_pool_mint s) -> (forall t, token_at w dest t -> t_native t = false) ->
  st_pool_mint s <> st_token_a_mint s -> st_pool_mint s <> st_token_b_mint s ->
  let accounts := pool :: authority :: user :: source_a :: source_b :: st_token_a s :: st_token_b s
                    :: st_pool_mint s :: dest :: TOKEN_PROGRAM_ID :: rest in
  let bal_a := balance w (st_token_a s) in
  let bal_b := balance w (st_token_b s) in
  let sup := supply w (st_pool_mint s) in
  let minted := if sup =? 0 then 10 ^ 9 else n in
  let outstanding := if sup =? 0 then 10 ^ 9 else sup in
  let quote := pool_tokens_to_trading_tokens (st_curve s) minted outstanding bal_a bal_b Ceiling in
  match exec e signers w (DepositAll accounts n ma mb) with
  | Ok _ => True
  | Err (ESwap UnsupportedCurveOperation) => exists l, st_curve s = LinearPrice l
  | Err (ESwap ZeroTradingTokens) => quote = Non \/ exists a b, quote = Val (a, b) /\ (a = 0 \/ b = 0)
  | Err (ESwap ExceededSlippage) => exists a b, quote = Val (a, b) /\ (ma < a \/ mb < b)
  | Err (ESwap ConversionFailure) => exists a b, quote = Val (a, b) /\ (u64_max < a \/ u64_max < b)
  | Err EToken => exists a b, quote = Val (a, b) /\ a <= ma /\ b <= mb /\
      (xa < a \/ xb < b \/ u64_max < bal_a + a \/ u64_max < bal_b + b \/
       u64_max < balance w dest + minted \/ u64_max < sup + minted)
  | Err _ => False
  end.
Proof.
  intros He Hr Hsig Hp Hpda Hn Hma Hmb Hus Hsu Hsa Tha Thb Hwa Hwb Hpay Hnn Npa Npb accounts bal_a bal_b sup minted outstanding quote.
  pose proof (deposit_all_live e signers w pool authority s user source_a source_b dest rest n ma mb xa xb He Hr Hsig Hp Hpda Hn Hma Hmb
    Hus Hsu Hsa Tha Thb Hwa Hwb Npa Npb) as Live.
  cbv zeta in Live. fold accounts bal_a bal_b sup in Live. fold minted outstanding in Live. fold quote in Live.
  pose proof (reachable_inv _ _ He Hr) as [Hwf Hok]. pose proof (Hok _ _ Hp) as Hpo.
  destruct Hpo as (au & Hf & Htp & Va & Vb & Nm & Nfa & Nfb & (pm & Pm & Pa & Pf) & Cf).
  assert (au = authority) by congruence. subst au.
  assert (Hcr : create_pda e pool (st_bump_seed s) = Some authority) by (apply (proj1 He); exact Hf).
  pose proof (balance_u64 w (st_token_a s) Hwf) as U1. pose proof (balance_u64 w (st_token_b s) Hwf) as U2. pose proof (mint_u64 _ _ _ Hwf Pm) as Um.
  destruct Va as (ta & Ta & Oa & _). destruct Vb as (tb & Tb & Ob & _).
  assert (Nuser : user <> authority) by (intros E'; apply (Hsig user Hus); exists pool, (st_bump_seed s); rewrite E'; exact Hcr).
  assert (Nsa : source_a <> st_token_a s).
  { destruct Hwa as (ts & Ts & Ow & _). intros E. rewrite E in Ts. rewrite (token_fun _ _ _ _ Ts Ta) in Ow. congruence. }
  assert (Nsb : source_b <> st_token_b s).
  { destruct Hwb as (ts & Ts & Ow & _). intros E. rewrite E in Ts. rewrite (token_fun _ _ _ _ Ts Tb) in Ow. congruence. }
  assert (Eb : bal_a = t_amount ta /\ bal_b = t_amount tb /\ sup = m_supply pm).
  { unfold bal_a, bal_b, sup. rewrite (token_balance _ _ _ Ta), (token_balance _ _ _ Tb), (mint_supply _ _ _ Pm). auto. }
  destruct Eb as (Ea & Eb & Es).
  destruct (exec e signers w (DepositAll accounts n ma mb)) as [w' | err] eqn:X; [exact I |].
  apply deposit_all_error with (s := s) in X; [| exact Hwf | exact Hp | exact Htp].
  unfold deposit_all_fault, accounts in X. cbv zeta in X.
  assert (Qu : forall m q, (exists ta0 tb0 pm0, token_at w (st_token_a s) ta0 /\ token_at w (st_token_b s) tb0 /\ mint_at w (st_pool_mint s) pm0 /\
    m = (if m_supply pm0 =? 0 then 10 ^ 9 else n) /\
    pool_tokens_to_trading_tokens (st_curve s) m (if m_supply pm0 =? 0 then 10 ^ 9 else m_supply pm0)
          (t_amount ta0) (t_amount tb0) Ceiling = q) -> quote = q).
  { intros m q (ta0 & tb0 & pm0 & Ta0 & Tb0 & Pm0 & Em & Hq).
    destruct (token_fun _ _ _ _ Ta Ta0). destruct (token_fun _ _ _ _ Tb Tb0). destruct (mint_fun _ _ _ _ Pm Pm0).
    unfold quote, minted, outstanding. rewrite Ea, Eb, Es, <- Em. exact Hq. }
  assert (NP : quote <> Panic).
  { apply (both_no_abort e (st_fees s)); try assumption.
    - unfold minted. destruct (sup =? 0); [unfold is_u64, u64_max; lia | exact Hn].
    - unfold outstanding. destruct (sup =? 0); [unfold is_u64, u64_max; lia | rewrite Es; exact Um]. }
  destruct err as [er | | | | | | | | |]; try exact X.
  - destruct er; try exact X.
    all: try (exfalso; destruct X as [X | [Y X]]; [cbn [account_fault] in X; exact X || (destruct X; congruence) || (destruct X as (? & ? & ?); congruence) || congruence | discriminate Y]).
    + exact (X pm (proj2 Pm)).
    + apply (no_token_false w [st_token_a s; st_token_b s]); [| exact X]. repeat constructor; eauto.
    + destruct X as (m & a & b & Hq & L). exists a, b. split; [exact (Qu _ _ Hq) | exact L].
    + destruct X as (m & [Hq | (a & b & Hq & L)]); [left; exact (Qu _ _ Hq) |]. right. exists a, b. split; [exact (Qu _ _ Hq) | exact L].
    + destruct X as (m & a & b & Hq & L). exists a, b. split; [exact (Qu _ _ Hq) | exact L].
    + destruct X as [X | [_ X]]; [cbn [account_fault] in X; congruence |].
      apply (not_foreign w [st_token_a s; st_token_b s; st_pool_mint s]); [| exact X].
      repeat constructor; [exact (proj1 Ta) | exact (proj1 Tb) | exact (proj1 Pm)].
    + destruct Cf as (_ & _ & _ & _ & _ & Cf). destruct (st_curve s) as [| p | amp | o | l]; try contradiction; [destruct (X I) | exists l; reflexivity].
  - exact (X Hus).
  - destruct X as (m & a & b & Hq & La & Lb & Za & Zb & _). apply Qu in Hq. exists a, b. split; [exact Hq |]. split; [exact La |]. split; [exact Lb |].
    destruct (Z_lt_le_dec xa a) as [G | G1]; [left; exact G |]. right.
    destruct (Z_lt_le_dec xb b) as [G | G2]; [left; exact G |]. right.
    destruct (Z_lt_le_dec u64_max (bal_a + a)) as [G | G3]; [left; exact G |]. right.
    destruct (Z_lt_le_dec u64_max (bal_b + b)) as [G | G4]; [left; exact G |]. right.
    destruct (Z_lt_le_dec u64_max (balance w dest + minted)) as [G | G5]; [left; exact G |]. right.
    destruct (Z_lt_le_dec u64_max (sup + minted)) as [G | G6]; [exact G | exfalso].
    destruct (proj2 Live) as (w' & Y); [| discriminate Y].
    assert (Td : takes_deposits (st_curve s)).
    { destruct Cf as (_ & _ & _ & _ & _ & Cf). unfold quote in Hq. destruct (st_curve s) as [| p | amp | o | l]; try contradiction; [exact I | discriminate Hq]. }
    split; [exact Td |]. exists a, b. split; [exact Hq |]. split; [exact Za |]. split; [exact Zb |].
    repeat (split; [assumption |]). split; [apply payee_accepts; assumption |]. split; assumption.
  - destruct X as (y & [<- | [<- | [<- | []]]] & Ny); [exact (Ny Hn) | exact (Ny Hma) | exact (Ny Hmb)].
  - destruct X as (m & Hq). exact (NP (Qu _ _ Hq)).
Qed.

(** ** The charge on withdrawals *)
Lemma exit_charged s source n c : fees_wf (st_fees s) -> 0 <= n -> exit_fee s source n = Val c ->
  c = exit_charge s source n /\ 0 <= c /\
  (st_pool_fee_account s = source /\ c = 0 \/
   st_pool_fee_account s <> source /\ owner_withdraw_fee (st_fees s) n = Val c).
Proof.
  intros Hf Hn. unfold exit_fee, exit_charge.
  destruct (fees_exact (st_fees s) n Hf Hn) as (_ & _ & -> & _).
  destruct (Z.eqb_spec (st_pool_fee_account s) source) as [E | N]; cbn [orb]; [intros [= <-]; repeat split; [lia | auto] |].
  intros H. pose proof H as H'. unfold fee_of in H. destruct (_ || _); [injection H as <-; repeat split; [lia | auto] |].
  destruct (_ || _); [discriminate |]. injection H as <-. repeat split; [lia | auto].
Qed.

Lemma exit_charge_u64 s source n : fees_wf (st_fees s) -> is_u64 n ->
  proper_fraction (owner_withdraw_fee_num (st_fees s)) (owner_withdraw_fee_den (st_fees s)) ->
  exists c, exit_fee s source n = Val c /\ 0 <= c <= n.
Proof.
  intros Hf Hn Hp. unfold exit_fee. destruct (_ =? _); [exists 0; unfold is_u64 in *; split; [reflexivity | lia] |].
  destruct (fees_exact (st_fees s) n Hf (proj1 Hn)) as (_ & _ & -> & _).
  destruct Hf as (_ & _ & _ & _ & F1 & F2 & _). apply proper_fee; assumption.
Qed.

(** ** Two-sided withdrawals *)
Lemma withdraw_all_request e signers w pool authority s user source dest_a dest_b rest n ma mb x :
  env_ok e -> reachable e w -> signers_ok e signers ->
  pool_at w pool s -> find_pda e pool = Some (authority, st_bump_seed s) ->
  is_u64 n -> is_u64 ma -> is_u64 mb -> In user signers -> single_signer w user -> single_signer w authority ->
  thawed w (st_token_a s) -> thawed w (st_token_b s) ->
  wallet w source user (st_pool_mint s) x -> (forall t, token_at w source t -> t_native t = false) ->
  payee w dest_a (st_token_a_mint s) -> payee w dest_b (st_token_b_mint s) ->
  dest_a <> st_token_a s -> dest_b <> st_token_b s -> payee w (st_pool_fee_account s) (st_pool_mint s) ->
  st_pool_mint s <> st_token_a_mint s -> st_pool_mint s <> st_token_b_mint s ->
  let accounts := pool :: authority :: user :: st_pool_mint s :: source :: st_token_a s :: st_token_b s
                    :: dest_a :: dest_b :: st_pool_fee_account s :: TOKEN_PROGRAM_ID :: rest in
  let bal_a := balance w (st_token_a s) in
  let bal_b := balance w (st_token_b s) in
  let sup := supply w (st_pool_mint s) in
  let charge := exit_charge s source n in
  let quote := pool_tokens_to_trading_tokens (st_curve s) (n - charge) sup bal_a bal_b Floor in
  match exec e signers w (WithdrawAll accounts n ma mb) with
  | Ok _ => True
  | Err (ESwap ZeroTradingTokens) => quote = Non \/
      exists a b, quote = Val (a, b) /\ (a = 0 /\ bal_a <> 0 \/ b = 0 /\ bal_b <> 0)
  | Err (ESwap ExceededSlippage) => exists a b, quote = Val (a, b) /\ (Z.min bal_a a < ma \/ Z.min bal_b b < mb)
  | Err (ESwap ConversionFailure) => exists a b, quote = Val (a, b) /\ (u64_max < a \/ u64_max < b)
  | Err EToken => exists a b, quote = Val (a, b) /\ ma <= Z.min bal_a a /\ mb <= Z.min bal_b b /\
      (x < n \/ sup < n - charge \/ u64_max < balance w (st_pool_fee_account s) + charge \/
       u64_max < balance w dest_a + Z.min bal_a a \/ u64_max < balance w dest_b + Z.min bal_b b)
  | Err _ => False
  end.
Proof.
  intros He Hr Hsig Hp Hpda Hn Hma Hmb Hus Hsu Hsa Tha Thb Hw Hnn Hpa Hpb Na Nb Hpf Npa Npb accounts bal_a bal_b sup charge quote.
  pose proof (withdraw_all_live e signers w pool authority s user source dest_a dest_b rest n ma mb x He Hr Hsig Hp Hpda Hn Hma Hmb
    Hus Hsu Hsa Tha Thb Hw Hnn Npa Npb) as Live.
  cbv zeta in Live. fold accounts bal_a bal_b sup in Live.
  pose proof (reachable_inv _ _ He Hr) as [Hwf Hok]. pose proof (Hok _ _ Hp) as Hpo.
  destruct Hpo as (au & Hf & Htp & Va & Vb & Nm & Nfa & Nfb & (pm & Pm & Pa & Pf) & Cf).
  assert (au = authority) by congruence. subst au.
  destruct (pool_wf _ _ _ Hwf Hp) as [(_ & _ & _ & _ & _ & _ & _ & _ & Hff & Hcf) _].
  assert (Hcr : create_pda e pool (st_bump_seed s) = Some authority) by (apply (proj1 He); exact Hf).
  pose proof (balance_u64 w (st_token_a s) Hwf) as U1. pose proof (balance_u64 w (st_token_b s) Hwf) as U2. pose proof (mint_u64 _ _ _ Hwf Pm) as Um.
  destruct Va as (ta & Ta & Oa & _). destruct Vb as (tb & Tb & Ob & _).
  assert (Eb : bal_a = t_amount ta /\ bal_b = t_amount tb /\ sup = m_supply pm).
  { unfold bal_a, bal_b, sup. rewrite (token_balance _ _ _ Ta), (token_balance _ _ _ Tb), (mint_supply _ _ _ Pm). auto. }
  destruct Eb as (Ea & Eb & Es).
  destruct (exit_charge_u64 s source n Hff Hn ltac:(apply Cf)) as (c & Hc & Bc).
  destruct (exit_charged s source n c Hff (proj1 Hn) Hc) as (Ec & _ & Dc). fold charge in Ec. rewrite <- Ec. 
  assert (Eq : quote = pool_tokens_to_trading_tokens (st_curve s) (n - c) sup bal_a bal_b Floor) by (unfold quote; rewrite Ec; reflexivity).
  destruct (exec e signers w (WithdrawAll accounts n ma mb)) as [w' | err] eqn:X; [exact I |].
  apply withdraw_all_error with (s := s) in X; [| exact Hwf | exact Hp | exact Htp].
  unfold withdraw_all_fault, accounts in X. cbv zeta in X. rewrite Hc in X.
  assert (Qu : forall c' ha hb q, Val c = Val c' -> (exists ta0 tb0 pm0, token_at w (st_token_a s) ta0 /\ token_at w (st_token_b s) tb0 /\ mint_at w (st_pool_mint s) pm0 /\
    ha = t_amount ta0 /\ hb = t_amount tb0 /\
    pool_tokens_to_trading_tokens (st_curve s) (n - c') (m_supply pm0) ha hb Floor = q) -> quote = q /\ ha = bal_a /\ hb = bal_b).
  { intros c' ha hb q [= <-] (ta0 & tb0 & pm0 & Ta0 & Tb0 & Pm0 & -> & -> & Hq).
    destruct (token_fun _ _ _ _ Ta Ta0). destruct (token_fun _ _ _ _ Tb Tb0). destruct (mint_fun _ _ _ _ Pm Pm0).
    split; [rewrite Eq, Ea, Eb, Es; exact Hq | split; congruence]. }
  assert (NP : quote <> Panic).
  { rewrite Eq. apply (both_no_abort e (st_fees s)); try assumption; [unfold is_u64 in *; lia | rewrite Es; exact Um]. }
  destruct err as [er | | | | | | | | |]; try exact X.
  - destruct er; try exact X.
    all: try (exfalso; destruct X as [X | [Y X]]; [cbn [account_fault] in X; exact X || (destruct X; congruence) || (destruct X as (? & ? & ?); congruence) || congruence | discriminate Y]).
    + exact (X pm (proj2 Pm)).
    + apply (no_token_false w [st_token_a s; st_token_b s]); [| exact X]. repeat constructor; eauto.
    + destruct X as (c' & Hc' & L). injection Hc' as <-. lia.
    + destruct X as (c' & ha & hb & a & b & Hc' & Hq & L). destruct (Qu _ _ _ _ Hc' Hq) as (Q & -> & ->). exists a, b. split; [exact Q | exact L].
    + destruct X as (c' & ha & hb & Hc' & [Hq | (a & b & Hq & L)]); destruct (Qu _ _ _ _ Hc' Hq) as (Q & -> & ->); [left; exact Q |].
      right. exists a, b. split; [exact Q |]. unfold is_u64 in *. fold bal_a in U1. fold bal_b in U2. lia.
    + discriminate X.
    + destruct X as (c' & ha & hb & a & b & Hc' & Hq & L). destruct (Qu _ _ _ _ Hc' Hq) as (Q & -> & ->). exists a, b. split; [exact Q | exact L].
    + destruct X as [X | [_ X]]; [cbn [account_fault] in X; congruence |].
      apply (not_foreign w [st_token_a s; st_token_b s; st_pool_mint s]); [| exact X].
      repeat constructor; [exact (proj1 Ta) | exact (proj1 Tb) | exact (proj1 Pm)].
  - exact (X Hus).
  - destruct X as (c' & ha & hb & a & b & Hc' & Hq & La & Lb & Za & Zb & Ma & Mb & _).
    destruct (Qu _ _ _ _ Hc' Hq) as (Q & -> & ->). clear Hq. exists a, b. split; [exact Q |]. split; [exact La |]. split; [exact Lb |].
    destruct (Z_lt_le_dec x n) as [G | G1]; [left; exact G |]. right.
    destruct (Z_lt_le_dec sup (n - c)) as [G | G2]; [left; exact G |]. right.
    destruct (Z_lt_le_dec u64_max (balance w (st_pool_fee_account s) + c)) as [G | G3]; [left; exact G |]. right.
    destruct (Z_lt_le_dec u64_max (balance w dest_a + Z.min bal_a a)) as [G | G4]; [left; exact G |]. right.
    destruct (Z_lt_le_dec u64_max (balance w dest_b + Z.min bal_b b)) as [G | G5]; [exact G | exfalso].
    destruct (proj2 Live) as (w' & Y); [| discriminate Y].
    split; [exact Na |]. split; [exact Nb |]. split; [exact G1 |]. exists c, a, b.
    split; [exact Dc |]. split; [lia |]. split; [exact G2 |]. split; [intros _; now apply payee_accepts |].
    split; [congruence |]. split; [exact Ma |]. split; [exact Mb |]. cbv zeta. repeat (split; [assumption |]). split; intros _; now apply payee_accepts.
  - destruct X as (y & [<- | [<- | [<- | []]]] & Ny); [exact (Ny Hn) | exact (Ny Hma) | exact (Ny Hmb)].
  - destruct X as [X | (c' & ha & hb & Hc' & Hq)]; [discriminate X |]. exact (NP (proj1 (Qu _ _ _ _ Hc' Hq))).
Qed.

(** ** One-sided deposits and withdrawals *)
Lemma round_div_large r a b : 0 < b -> 0 <= a -> u128_max < round_div r a b -> u128_max * b < a.
Proof.
  intros Hb Ha. unfold round_div, up_div. destruct r; intros H.
  - assert (b * (a / b) <= a) by (apply Z.mul_div_le; lia). nia.
  - destruct (Z.ltb_spec a b); [destruct (_ <=? _); unfold u128_max in *; lia |].
    assert (b * ((a + b - 1) / b) <= a + b - 1) by (apply Z.mul_div_le; lia). nia.
Qed.

(** Only constant-price pools have quotes for one token that abort. *)
Lemma single_aborts e f c n a b sup d : config_ok e f c -> fees_wf f -> is_u64 n -> is_u64 a -> is_u64 b -> is_u64 sup ->
  curve_deposit_single c n a b sup d f = Panic \/ curve_withdraw_single c n a b sup d f = Panic ->
  exists p, c = ConstantPrice p /\ u128_max * pool_value p a b < sup * value_of p n d.
Proof.
  intros (_ & Pf & _ & _ & _ & Cf) Hf Hn Ha Hb Hs.
  destruct (half_fee_both c n a b sup d f Hf Hn) as [-> ->]. unfold after_half_fee.
  destruct (Z.eqb_spec n 0) as [E | N]; [intros [H | H]; discriminate H |].
  assert (Uh : is_u64 (Z.max 1 (n / 2))).
  { unfold is_u64 in *. assert (0 <= n / 2 <= n) by (split; [apply Z.div_pos; lia | apply Z.div_le_upper_bound; lia]). lia. }
  destruct (proper_fee _ _ _ Uh (proj1 Hf) (proj1 (proj2 Hf)) Pf) as (fee & -> & Bf).
  destruct (Z.ltb_spec n fee); [intros [H' | H']; discriminate H' |].
  destruct c as [| p | amp | o | l]; try contradiction; [| intros [H' | H']; discriminate H'].
  destruct Cf as [Hp Pp].
  assert (Us : is_u128 (n - fee) /\ is_u128 a /\ is_u128 b) by (unfold is_u64, is_u128, u64_max, u128_max in *; lia).
  destruct Us as (Us & Ua & Ub).
  destruct (cprice_singles p (n - fee) a b sup d Hp Us Ua Ub Hs) as [-> ->].
  intros H'. exists p. split; [reflexivity |]. unfold price_single_quote in H'. unfold is_u64 in *.
  assert (V0 : 0 <= pool_value p a b).
  { unfold pool_value. assert (0 <= p * b) by (apply Z.mul_nonneg_nonneg; lia). lia. }
  destruct (Z.eqb_spec (pool_value p a b) 0) as [E | N0]; [destruct H' as [H' | H']; discriminate H' |].
  assert (L : value_of p (n - fee) d <= value_of p n d /\ 0 <= value_of p (n - fee) d).
  { unfold value_of. destruct d; [lia |]. split; [apply Z.mul_le_mono_nonneg_l; lia | apply Z.mul_nonneg_nonneg; lia]. }
  assert (L2 : sup * value_of p (n - fee) d <= sup * value_of p n d) by (apply Z.mul_le_mono_nonneg_l; lia).
  assert (L3 : 0 <= sup * value_of p (n - fee) d) by (apply Z.mul_nonneg_nonneg; lia).
  assert (X : exists r, u128_max < round_div r (sup * value_of p (n - fee) d) (pool_value p a b)).
  { destruct H' as [H' | H']; [exists Floor | exists Ceiling]; cbv zeta in H'; match type of H' with context [?y <=? u128_max] => destruct (Z.leb_spec y u128_max) end; try discriminate; assumption. }
  destruct X as (r & X). apply round_div_large in X; lia.
Qed.

Lemma deposit_single_request e signers w pool authority s d user source dest rest n mp x :
  env_ok e -> reachable e w -> signers_ok e signers ->
  pool_at w pool s -> find_pda e pool = Some (authority, st_bump_seed s) ->
  is_u64 n -> is_u64 mp -> In user signers -> single_signer w user -> single_signer w authority ->
  thawed w (side_vault d s) -> wallet w source user (mint_on d s) x -> st_pool_mint s <> mint_on d s ->
  payee w dest (st_pool_mint s) -> (forall t, token_at w dest t -> t_native t = false) ->
  let accounts := pool :: authority :: user :: source :: st_token_a s :: st_token_b s
                    :: st_pool_mint s :: dest :: TOKEN_PROGRAM_ID :: rest in
  let bal_a := balance w (st_token_a s) in
  let bal_b := balance w (st_token_b s) in
  let sup := supply w (st_pool_mint s) in
  let quote := if sup =? 0 then Val (10 ^ 9) else curve_deposit_single (st_curve s) n bal_a bal_b sup d (st_fees s) in
  match exec e signers w (DepositSingle accounts n mp) with
  | Ok _ => True
  | Err (ESwap ZeroTradingTokens) => quote = Non \/ quote = Val 0
  | Err (ESwap ExceededSlippage) => exists minted, quote = Val minted /\ minted < mp
  | Err (ESwap ConversionFailure) => exists minted, quote = Val minted /\ u64_max < minted
  | Err EToken => exists minted, quote = Val minted /\ mp <= minted /\
      (x < n \/ u64_max < balance w (side_vault d s) + n \/
       u64_max < balance w dest + minted \/ u64_max < sup + minted)
  | Err EPanic => exists p, st_curve s = ConstantPrice p /\ u128_max * pool_value p bal_a bal_b < sup * value_of p n d
  | Err _ => False
  end.
Proof.
  intros He Hr Hsig Hp Hpda Hn Hmp Hus Hsu Hsa Thv Hw Np Hpay Hnn accounts bal_a bal_b sup quote.
  pose proof (deposit_single_live e signers w pool authority s d user source dest rest n mp x He Hr Hsig Hp Hpda Hn Hmp
    Hus Hsu Hsa Thv Hw Np) as Live.
  cbv zeta in Live. fold accounts bal_a bal_b sup in Live. fold quote in Live.
  pose proof (reachable_inv _ _ He Hr) as [Hwf Hok]. pose proof (Hok _ _ Hp) as Hpo.
  destruct Hpo as (au & Hf & Htp & Va & Vb & Nm & Nfa & Nfb & (pm & Pm & Pa & Pf) & Cf).
  assert (au = authority) by congruence. subst au.
  destruct (pool_wf _ _ _ Hwf Hp) as [(_ & _ & _ & _ & _ & _ & _ & _ & Hff & Hcf) _].
  assert (Hcr : create_pda e pool (st_bump_seed s) = Some authority) by (apply (proj1 He); exact Hf).
  pose proof (balance_u64 w (st_token_a s) Hwf) as U1. pose proof (balance_u64 w (st_token_b s) Hwf) as U2. pose proof (mint_u64 _ _ _ Hwf Pm) as Um.
  destruct Va as (ta & Ta & Oa & Ma & _). destruct Vb as (tb & Tb & Ob & Mb & _).
  assert (Nuser : user <> authority) by (intros E'; apply (Hsig user Hus); exists pool, (st_bump_seed s); rewrite E'; exact Hcr).
  destruct Hw as (ts & Ts & Ow & _ & Mi & _).
  assert (Nsv : source <> side_vault d s).
  { intros E. rewrite E in Ts. destruct d; cbn [side_vault] in Ts; [rewrite (token_fun _ _ _ _ Ts Ta) in Ow | rewrite (token_fun _ _ _ _ Ts Tb) in Ow]; congruence. }
  assert (Eb : bal_a = t_amount ta /\ bal_b = t_amount tb /\ sup = m_supply pm).
  { unfold bal_a, bal_b, sup. rewrite (token_balance _ _ _ Ta), (token_balance _ _ _ Tb), (mint_supply _ _ _ Pm). auto. }
  destruct Eb as (Ea & Eb & Es).
  assert (Hpk : picks (t_mint ts) (t_mint ta) (t_mint tb) d).
  { destruct d; cbn [picks mint_on] in *; [congruence | split; congruence]. }
  assert (Sd : forall d', side_of w source (st_token_a s) (st_token_b s) d' -> d' = d).
  { intros d' (t & ta0 & tb0 & T & Ta0 & Tb0 & Pk).
    destruct (token_fun _ _ _ _ Ts T). destruct (token_fun _ _ _ _ Ta Ta0). destruct (token_fun _ _ _ _ Tb Tb0).
    destruct d, d'; cbn [picks] in *; try reflexivity; exfalso; [exact (proj2 Pk Hpk) | exact (proj2 Hpk Pk)]. }
  destruct (exec e signers w (DepositSingle accounts n mp)) as [w' | err] eqn:X; [exact I |].
  apply deposit_single_error with (s := s) in X; [| exact Hwf | exact Hp | exact Htp].
  unfold deposit_single_fault, accounts in X. cbv zeta in X.
  assert (Qu : forall d' q, (side_of w source (st_token_a s) (st_token_b s) d' /\
    exists ta0 tb0 pm0, token_at w (st_token_a s) ta0 /\ token_at w (st_token_b s) tb0 /\ mint_at w (st_pool_mint s) pm0 /\
    (if m_supply pm0 =? 0 then Val (10 ^ 9) else
             curve_deposit_single (st_curve s) n (t_amount ta0) (t_amount tb0) (m_supply pm0) d' (st_fees s)) = q) -> quote = q).
  { intros d' q (S & ta0 & tb0 & pm0 & Ta0 & Tb0 & Pm0 & Hq). apply Sd in S. subst d'.
    destruct (token_fun _ _ _ _ Ta Ta0). destruct (token_fun _ _ _ _ Tb Tb0). destruct (mint_fun _ _ _ _ Pm Pm0).
    unfold quote. rewrite Ea, Eb, Es. exact Hq. }
  destruct err as [er | | | | | | | | |]; try exact X.
  - destruct er; try exact X.
    all: try (exfalso; destruct X as [X | [[Y X] | [Y X]]]; [cbn [account_fault] in X; exact X || (destruct X; congruence) || (destruct X as (? & ? & ?); congruence) || congruence | discriminate Y | discriminate Y]).
    + exact (X pm (proj2 Pm)).
    + apply (no_token_false w [source; st_token_a s; st_token_b s]); [| exact X]. repeat constructor; eauto.
    + destruct X as (d' & S & E). apply Sd in S. subst d'. apply Nsv. rewrite E. destruct d; reflexivity.
    + destruct X as [X | [[_ X] | [Y _]]]; [cbn [account_fault] in X; destruct X; congruence | | discriminate Y].
      destruct X as (t & ta0 & tb0 & T & Ta0 & Tb0 & N1 & N2).
      destruct (token_fun _ _ _ _ Ts T). destruct (token_fun _ _ _ _ Ta Ta0). destruct (token_fun _ _ _ _ Tb Tb0).
      destruct d; cbn [mint_on] in Mi; congruence.
    + destruct X as (d' & minted & Hq & L). exists minted. split; [exact (Qu _ _ Hq) | exact L].
    + destruct X as (d' & [Hq | Hq]); [left | right]; exact (Qu _ _ Hq).
    + destruct X as (d' & minted & Hq & L). exists minted. split; [exact (Qu _ _ Hq) | exact L].
    + destruct X as [X | [[Y _] | [_ X]]]; [cbn [account_fault] in X; congruence | discriminate Y |].
      apply (not_foreign w [source; st_token_a s; st_token_b s; st_pool_mint s]); [| exact X].
      repeat constructor; [exact (proj1 Ts) | exact (proj1 Ta) | exact (proj1 Tb) | exact (proj1 Pm)].
  - exact (X Hus).
  - destruct X as (d' & minted & Hq & L & Nz & _). apply Qu in Hq. exists minted. split; [exact Hq |]. split; [exact L |].
    destruct (Z_lt_le_dec x n) as [G | G1]; [left; exact G |]. right.
    destruct (Z_lt_le_dec u64_max (balance w (side_vault d s) + n)) as [G | G2]; [left; exact G |]. right.
    destruct (Z_lt_le_dec u64_max (balance w dest + minted)) as [G | G3]; [left; exact G |]. right.
    destruct (Z_lt_le_dec u64_max (sup + minted)) as [G | G4]; [exact G | exfalso].
    destruct (proj2 Live) as (w' & Y); [| discriminate Y]. exists minted. repeat (split; [assumption |]).
    split; [now apply payee_accepts |]. split; assumption.
  - destruct X as (y & [<- | [<- | []]] & Ny); [exact (Ny Hn) | exact (Ny Hmp)].
  - destruct X as (d' & Hq). apply Qu in Hq. unfold quote in Hq. destruct (sup =? 0); [discriminate Hq |].
    apply (single_aborts e (st_fees s) (st_curve s) n bal_a bal_b sup d); try assumption; [rewrite Es; exact Um | left; exact Hq].
Qed.

Lemma withdraw_single_request e signers w pool authority s d user source dest rest n mp x :
  env_ok e -> reachable e w -> signers_ok e signers ->
  pool_at w pool s -> find_pda e pool = Some (authority, st_bump_seed s) ->
  is_u64 n -> is_u64 mp -> In user signers -> single_signer w user -> single_signer w authority ->
  thawed w (side_vault d s) -> payee w dest (mint_on d s) -> dest <> side_vault d s ->
  wallet w source user (st_pool_mint s) x -> (forall t, token_at w source t -> t_native t = false) ->
  st_pool_mint s <> mint_on d s -> payee w (st_pool_fee_account s) (st_pool_mint s) ->
  let accounts := pool :: authority :: user :: st_pool_mint s :: source :: st_token_a s :: st_token_b s
                    :: dest :: st_pool_fee_account s :: TOKEN_PROGRAM_ID :: rest in
  let bal_a := balance w (st_token_a s) in
  let bal_b := balance w (st_token_b s) in
  let sup := supply w (st_pool_mint s) in
  let charge := exit_charge s source in
  let quote := curve_withdraw_single (st_curve s) n bal_a bal_b sup d (st_fees s) in
  match exec e signers w (WithdrawSingle accounts n mp) with
  | Ok _ => True
  | Err (ESwap ZeroTradingTokens) => quote = Non \/ quote = Val 0
  | Err (ESwap ExceededSlippage) => exists burnt, quote = Val burnt /\ mp < burnt + charge burnt
  | Err (ESwap FeeCalculationFailure) => exists burnt, quote = Val burnt /\
      u128_max < burnt * owner_withdraw_fee_num (st_fees s)
  | Err (ESwap CalculationFailure) => exists burnt, quote = Val burnt /\ u128_max < burnt + charge burnt
  | Err (ESwap ConversionFailure) => exists burnt, quote = Val burnt /\ u64_max < burnt + charge burnt
  | Err EToken => exists burnt, quote = Val burnt /\ burnt + charge burnt <= mp /\
      (x < burnt + charge burnt \/ sup < burnt \/ u64_max < balance w (st_pool_fee_account s) + charge burnt \/
       balance w (side_vault d s) < n \/ u64_max < balance w dest + n)
  | Err EPanic => exists p, st_curve s = ConstantPrice p /\ u128_max * pool_value p bal_a bal_b < sup * value_of p n d
  | Err _ => False
  end.
Proof.
  intros He Hr Hsig Hp Hpda Hn Hmp Hus Hsu Hsa Thv Hpay Nsv Hw Hnn Np Hpf accounts bal_a bal_b sup charge quote.
  pose proof (withdraw_single_live e signers w pool authority s d user source dest rest n mp x He Hr Hsig Hp Hpda Hn Hmp
    Hus Hsu Hsa Thv ltac:(destruct Hpay as (t & T & M & _); exists t; split; assumption) Hw Hnn Np) as Live.
  cbv zeta in Live. fold accounts bal_a bal_b sup in Live. fold quote in Live.
  pose proof (reachable_inv _ _ He Hr) as [Hwf Hok]. pose proof (Hok _ _ Hp) as Hpo.
  destruct Hpo as (au & Hf & Htp & Va & Vb & Nm & Nfa & Nfb & (pm & Pm & Pa & Pf) & Cf).
  assert (au = authority) by congruence. subst au.
  destruct (pool_wf _ _ _ Hwf Hp) as [(_ & _ & _ & _ & _ & _ & _ & _ & Hff & Hcf) _].
  assert (Hcr : create_pda e pool (st_bump_seed s) = Some authority) by (apply (proj1 He); exact Hf).
  pose proof (balance_u64 w (st_token_a s) Hwf) as U1. pose proof (balance_u64 w (st_token_b s) Hwf) as U2. pose proof (mint_u64 _ _ _ Hwf Pm) as Um.
  destruct Va as (ta & Ta & Oa & Ma & _). destruct Vb as (tb & Tb & Ob & Mb & _).
  pose proof Hpay as (ts & Ts & Mi & _).
  assert (Eb : bal_a = t_amount ta /\ bal_b = t_amount tb /\ sup = m_supply pm).
  { unfold bal_a, bal_b, sup. rewrite (token_balance _ _ _ Ta), (token_balance _ _ _ Tb), (mint_supply _ _ _ Pm). auto. }
  destruct Eb as (Ea & Eb & Es).
  assert (Hpk : picks (t_mint ts) (t_mint ta) (t_mint tb) d).
  { destruct d; cbn [picks mint_on] in *; [congruence | split; congruence]. }
  assert (Sd : forall d', side_of w dest (st_token_a s) (st_token_b s) d' -> d' = d).
  { intros d' (t & ta0 & tb0 & T & Ta0 & Tb0 & Pk).
    destruct (token_fun _ _ _ _ Ts T). destruct (token_fun _ _ _ _ Ta Ta0). destruct (token_fun _ _ _ _ Tb Tb0).
    destruct d, d'; cbn [picks] in *; try reflexivity; exfalso; [exact (proj2 Pk Hpk) | exact (proj2 Hpk Pk)]. }
  assert (Nn : forall burnt, quote = Val burnt -> 0 <= burnt).
  { intros burnt Hq. unfold quote in Hq. eapply withdraw_single_nonneg; [exact Hcf | | | | exact Hq]; unfold is_u64 in *; fold bal_a in U1; fold bal_b in U2; lia. }
  assert (Ch : forall burnt c, quote = Val burnt -> exit_fee s source burnt = Val c -> c = charge burnt /\ 0 <= c /\
      (st_pool_fee_account s = source /\ c = 0 \/ st_pool_fee_account s <> source /\ owner_withdraw_fee (st_fees s) burnt = Val c)).
  { intros burnt c Hq Hc. exact (exit_charged s source burnt c Hff (Nn _ Hq) Hc). }
  destruct (exec e signers w (WithdrawSingle accounts n mp)) as [w' | err] eqn:X; [exact I |].
  apply withdraw_single_error with (s := s) in X; [| exact Hwf | exact Hp | exact Htp].
  unfold withdraw_single_fault, accounts in X. cbv zeta in X.
  assert (Qu : forall d' q, (side_of w dest (st_token_a s) (st_token_b s) d' /\
    exists ta0 tb0 pm0, token_at w (st_token_a s) ta0 /\ token_at w (st_token_b s) tb0 /\ mint_at w (st_pool_mint s) pm0 /\
      curve_withdraw_single (st_curve s) n (t_amount ta0) (t_amount tb0) (m_supply pm0) d' (st_fees s) = q) -> quote = q).
  { intros d' q (S & ta0 & tb0 & pm0 & Ta0 & Tb0 & Pm0 & Hq). apply Sd in S. subst d'.
    destruct (token_fun _ _ _ _ Ta Ta0). destruct (token_fun _ _ _ _ Tb Tb0). destruct (mint_fun _ _ _ _ Pm Pm0).
    unfold quote. rewrite Ea, Eb, Es. exact Hq. }
  destruct err as [er | | | | | | | | |]; try exact X.
  - destruct er; try exact X.
    all: try (exfalso; destruct X as [X | [[Y X] | [Y X]]]; [cbn [account_fault] in X; exact X || (destruct X; congruence) || (destruct X as (? & ? & ?); congruence) || congruence | discriminate Y | discriminate Y]).
    + exact (X pm (proj2 Pm)).
    + apply (no_token_false w [dest; st_token_a s; st_token_b s]); [| exact X]. repeat constructor; eauto.
    + destruct X as (d' & S & E). apply Sd in S. subst d'. apply Nsv. rewrite E. destruct d; reflexivity.
    + destruct X as [X | [[_ X] | [Y _]]]; [cbn [account_fault] in X; destruct X; congruence | | discriminate Y].
      destruct X as (t & ta0 & tb0 & T & Ta0 & Tb0 & N1 & N2).
      destruct (token_fun _ _ _ _ Ts T). destruct (token_fun _ _ _ _ Ta Ta0). destruct (token_fun _ _ _ _ Tb Tb0).
      destruct d; cbn [mint_on] in Mi; congruence.
    + destruct X as (d' & burnt & c & Hq & Hc & L). apply Qu in Hq. exists burnt. destruct (Ch _ _ Hq Hc) as (<- & _). split; assumption.
    + destruct X as (d' & burnt & c & Hq & Hc & L). apply Qu in Hq. exists burnt. destruct (Ch _ _ Hq Hc) as (<- & _). split; assumption.
    + destruct X as (d' & [Hq | (burnt & c & Hq & Hc & L)]); apply Qu in Hq; [left; exact Hq | right].
      destruct (Ch _ _ Hq Hc) as (_ & C0 & _). pose proof (Nn _ Hq). assert (burnt = 0) by lia. congruence.
    + destruct X as (d' & burnt & Hq & Hc). apply Qu in Hq. exists burnt. split; [exact Hq |].
      unfold exit_fee in Hc. destruct (_ =? _); [discriminate Hc |].
      destruct (fees_exact (st_fees s) burnt Hff (Nn _ Hq)) as (_ & _ & E & _). rewrite E in Hc. clear E. unfold fee_of in Hc.
      destruct (Z.eqb_spec (owner_withdraw_fee_num (st_fees s)) 0) as [E | N]; [discriminate Hc |].
      destruct Cf as (_ & _ & _ & Pw & _). destruct Hff as (_ & _ & _ & _ & F1 & _). unfold proper_fraction, is_u64 in *.
      destruct (_ =? 0); [discriminate Hc |]. cbn [orb] in Hc.
      destruct (Z.ltb_spec u128_max (burnt * owner_withdraw_fee_num (st_fees s))); [assumption |]. cbn [orb] in Hc.
      destruct (Z.eqb_spec (owner_withdraw_fee_den (st_fees s)) 0); [lia | discriminate Hc].
    + destruct X as (d' & burnt & c & Hq & Hc & L). apply Qu in Hq. exists burnt. destruct (Ch _ _ Hq Hc) as (<- & _). split; assumption.
    + destruct X as [X | [[Y _] | [_ X]]]; [cbn [account_fault] in X; congruence | discriminate Y |].
      apply (not_foreign w [dest; st_token_a s; st_token_b s; st_pool_mint s]); [| exact X].
      repeat constructor; [exact (proj1 Ts) | exact (proj1 Ta) | exact (proj1 Tb) | exact (proj1 Pm)].
  - exact (X Hus).
  - destruct X as (d' & burnt & c & Hq & Hc & L & Nz & _). apply Qu in Hq. exists burnt. split; [exact Hq |].
    destruct (Ch _ _ Hq Hc) as (<- & C0 & Dc). split; [exact L |].
    destruct (Z_lt_le_dec x (burnt + c)) as [G | G1]; [left; exact G |]. right.
    destruct (Z_lt_le_dec sup burnt) as [G | G2]; [left; exact G |]. right.
    destruct (Z_lt_le_dec u64_max (balance w (st_pool_fee_account s) + c)) as [G | G3]; [left; exact G |]. right.
    destruct (Z_lt_le_dec (balance w (side_vault d s)) n) as [G | G4]; [left; exact G |]. right.
    destruct (Z_lt_le_dec u64_max (balance w dest + n)) as [G | G5]; [exact G | exfalso].
    destruct (proj2 Live) as (w' & Y); [| discriminate Y]. split; [exact Nsv |]. exists burnt, c. repeat (split; [assumption |]).
    split; [intros _; now apply payee_accepts |]. split; [exact G4 |]. now apply payee_accepts.
  - destruct X as (y & [<- | [<- | []]] & Ny); [exact (Ny Hn) | exact (Ny Hmp)].
  - destruct X as (d' & [Hq | (burnt & Hq & Hc)]); apply Qu in Hq.
    + apply (single_aborts e (st_fees s) (st_curve s) n bal_a bal_b sup d); try assumption; [rewrite Es; exact Um | right; exact Hq].
    + exfalso. unfold exit_fee in Hc. destruct (_ =? _); [discriminate Hc |]. exact (calculate_fee_no_panic _ _ _ Hc).
Qed.
