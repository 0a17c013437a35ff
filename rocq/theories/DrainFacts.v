(** Draining a linear pool, and the test [minimum_token_exchange_rounding]. *)
From Verif Require Import Ints Tactics DfsPrecise Fees LinearCurve SwapCurve Codec Token Processor Api History
  Spec LedgerSpec TraceSpec RoundSpec DfsFacts LinearFacts SwapFacts LinearExact LinearProps LinearRound LinearHistory LinearBacked
  BackFacts EffectFacts HistoryFacts LedgerLinear BackLedger RandomTests RoundTrip.

Lemma no_fees_feeless : feeless no_fees.
Proof. split; reflexivity. Qed.

(** ** A pool without collateral *)
Lemma cost_some c T x : linear_pos c -> 0 < T -> costly c T -> 1 <= x ->
  cost2_den c < cost2 c (Z.max 0 (x * ONE - 2 * T)).
Proof.
  intros Hp HT Hcy Hx. destruct (costly_small c T Hp Hcy) as (H4 & _ & _). pose proof ONE_pos as HO.
  assert (L : ONE <= x * ONE) by nia. rewrite Z.max_r by lia.
  destruct Hp as ((_ & _ & Pn & _) & P1 & P2 & P3). unfold is_u64, costly in *.
  unfold cost2, cost2_den, cost_den. change ONE with (10 ^ 18) in *.
  set (y := x * 10 ^ 18 - 2 * T) in *.
  assert (Y : 10 ^ 18 - 2 * T <= y) by (unfold y; lia). clearbody y.
  assert (S0 : 0 <= slope_num c * price_den c * y * y) by (repeat apply Z.mul_nonneg_nonneg; lia).
  assert (C1 : price_num c * (10 ^ 18 - 4 * T) <= price_num c * y) by (apply Z.mul_le_mono_nonneg_l; lia).
  assert (C2 : 10 ^ 18 * price_den c < price_num c * y) by lia.
  assert (C3 : slope_den c * (10 ^ 18 * price_den c) < slope_den c * (price_num c * y)) by (apply Z.mul_lt_mono_pos_l; lia).
  lia.
Qed.

Lemma covered_drained c T st : linear_pos c -> 0 < T -> costly c T ->
  covered c T HALF (short c) (total st * ONE) st -> held st = 0 -> 0 < total st -> total st <= left st.
Proof.
  intros Hp HT Hcy B H0 Ht. destruct (covered_short c T st Hp B) as (B1 & B2). rewrite H0 in *.
  destruct (Z.le_gt_cases (total st) (left st)) as [L | L]; [exact L |]. exfalso.
  assert (1 <= sold st) by (unfold total in *; lia).
  pose proof (cost_some c T (sold st) Hp HT Hcy ltac:(lia)) as C. pose proof (cost2_den_pos c Hp). lia.
Qed.

Lemma drained_history c f T D ops :
  linear_wf c -> linear_validate c = Ok tt -> fine c T -> costly c T -> feeless f -> is_u64 D ->
  (forall x, ~ In (TopUp x) ops) ->
  let st := lrun c f (mk_lpool 0 D 0) ops in held st = 0 -> D <= left st.
Proof.
  intros Hc Hv HF Hcy Hf HD Hno. cbv zeta. intros H0. pose proof (validated_pos c Hc Hv) as Hp.
  pose proof (rounded_always c f T D ops Hc Hv HF Hcy Hf HD Hno) as (B1 & B2). rewrite H0 in *.
  assert (Tt : total (lrun c f (mk_lpool 0 D 0) ops) = D).
  { rewrite lrun_total; [unfold total; cbn; lia | exact Hf |].
    apply Forall_forall. intros o Ho. destruct o; try exact I. exact (Hno x Ho). }
  set (st := lrun c f (mk_lpool 0 D 0) ops) in *. clearbody st.
  destruct (Z.le_gt_cases D (left st)) as [L | L]; [exact L |]. exfalso.
  assert (1 <= sold st) by (unfold total in *; lia).
  pose proof (cost_some c T (sold st) Hp (proj1 HF) Hcy ltac:(lia)) as C. pose proof (cost2_den_pos c Hp). lia.
Qed.

Lemma drained_ledger e w evs w' k s c T : env_ok e -> reachable e w -> history e w evs w' ->
  pool_at w k s -> st_curve s = LinearPrice c -> fine c T -> costly c T ->
  balance w' (st_token_a s) = 0 -> balance w (st_token_b s) <= balance w' (st_token_b s).
Proof.
  intros He R H Hp Hl HF Hcy H0. pose proof (reachable_inv _ _ He R) as I.
  pose proof (linear_config _ _ _ _ _ (proj2 I _ _ Hp) Hl) as (_ & Hc).
  pose proof (balance_u64 w (st_token_a s) (proj1 I)) as Ua. unfold is_u64 in Ua.
  pose proof (rounded_ledger e w evs w' k s c T 0 He R H Hp Hl HF Hcy ltac:(lia)) as B. cbv zeta in B.
  destruct B as (B & _).
  { unfold cost_num. rewrite !Z.mul_0_r. apply Z.mul_nonneg_nonneg; [| lia]. unfold cost_den. destruct Hc as (_ & ? & ? & ?). nia. }
  rewrite H0 in B. destruct (Z.le_gt_cases (balance w (st_token_b s)) (balance w' (st_token_b s))) as [L | L]; [exact L |]. exfalso.
  pose proof (cost_some c T (0 + balance w (st_token_b s) - balance w' (st_token_b s)) Hc (proj1 HF) Hcy ltac:(lia)) as C.
  lia.
Qed.

(** ** The test *)
Lemma raise_offer_val rounds trade step offer r : 0 <= step -> 0 <= offer ->
  raise_offer rounds trade step offer = Some (Go r) -> exists n, 0 <= n /\ trade n = Val r.
Proof.
  intros Hs. revert offer. induction rounds as [| rounds IH]; intros offer Ho H; [discriminate |].
  cbn [raise_offer] in H. destruct (trade offer) as [r' | |] eqn:E.
  - injection H as <-. exists offer. auto.
  - unfold tadd, add_in in H. destruct (_ <=? _); cbn [unwrap rbind] in H; [| discriminate].
    apply IH in H; [exact H | lia].
  - discriminate.
Qed.

Lemma first_offer_nonneg n step x : 0 <= n -> first_offer n step = Go x -> 0 <= x.
Proof.
  intros Hn. unfold first_offer, tmul, mul_in. generalize (10 * step). intros k.
  destruct (_ <=? _); cbn [unwrap tbind]; [| discriminate].
  intros H. injection H as <-. destruct (Z.leb_spec k n); lia.
Qed.

Lemma tsub_go x y z : tsub x y = Go z -> z = x - y /\ y <= x.
Proof.
  unfold tsub, csub. destruct (Z.leb_spec y x); cbn [unwrap]; [| discriminate]. intros H'. injection H' as <-. lia.
Qed.

Lemma tadd_go x y z : tadd x y = Go z -> z = x + y.
Proof. unfold tadd, add_in. destruct (_ <=? _); cbn [unwrap]; [| discriminate]. intros H. injection H as <-. reflexivity. Qed.

Lemma rbind_go {A B} (m : option (test A)) (k : A -> option (test B)) r : rbind m k = Some (Go r) ->
  exists x, m = Some (Go x) /\ k x = Some (Go r).
Proof. destruct m as [[x | v] |]; cbn [rbind]; intros H; try discriminate. exists x. auto. Qed.

Ltac go := repeat match goal with
  | H : rbind _ _ = Some (Go _) |- _ => apply rbind_go in H; destruct H as (? & ? & H)
  | H : tbind ?m _ = Go _ |- _ => destruct m eqn:?; cbn [tbind] in H; [| discriminate]
  end.

Lemma buy_offer_nonneg c step x n : buy_offer c step x = Go n -> 0 <= n.
Proof. intros H. unfold buy_offer in H. go. apply first_offer_nonneg in H; [exact H |]. apply tsub_go in Heqt3. lia. Qed.

Lemma sell_offer_nonneg c step x n : sell_offer c step x = Go n -> 0 <= n.
Proof. intros H. unfold sell_offer in H. go. apply first_offer_nonneg in H; [exact H |]. apply tsub_go in Heqt3. lia. Qed.

(** What a purchase takes would have been enough as an offer. *)
Lemma buy_exact c s a b src dst : linear_swap c s a b AtoB = Val (src, dst) -> linear_swap c src a b AtoB = Val (src, dst).
Proof.
  intros H. unfold linear_swap in *. destruct (swap_a_to_b c s a b) as [[x y] | |] eqn:E; try discriminate. cbn [obind] in H.
  assert (Exy : x = src /\ y = dst).
  { unfold map_zero_to_none in H. destruct (x =? 0), (y =? 0); cbn [obind] in H; try discriminate. injection H as <- <-. auto. }
  destruct Exy as (-> & ->). replace (swap_a_to_b c src a b) with (Val (src, dst)); [exact H |]. symmetry.
  unfold swap_a_to_b in *. destruct (dfs_new a) as [a0 | |]; cbn [obind] in *; try discriminate.
  destruct (b_value_with_amt_a_locked c a0 true) as [b0 | |]; cbn [obind] in *; try discriminate.
  assert (M : maximum_a_remaining c a0 b0 s b = Val (src, dst) -> maximum_a_remaining c a0 b0 src b = Val (src, dst)).
  { unfold maximum_a_remaining. intros M.
    repeat match goal with H : obind ?m _ = Val _ |- _ => destruct m; cbn [obind] in *; try discriminate end.
    destruct (_ <=? s) in M; [| discriminate]. injection M as -> ->. rewrite Z.leb_refl. reflexivity. }
  destruct (maximum_a_remaining c a0 b0 s b) as [r | |] eqn:Em.
  - injection E as ->. rewrite (M eq_refl). reflexivity.
  - assert (src = s) by (inv; reflexivity). subst s. rewrite Em. exact E.
  - discriminate.
Qed.

(** A sale takes what was offered or the whole position. *)
Lemma sell_exact c n b a src dst : is_u64 a -> linear_swap c n b a BtoA = Val (src, dst) ->
  src = n \/ exists b0, b_up c a = Val b0 /\ dfs_to_imprecise b0 = Val src.
Proof.
  intros Ua H. unfold linear_swap in *. destruct (swap_b_to_a c n b a) as [[x y] | |] eqn:E; try discriminate. cbn [obind] in H.
  assert (Exy : x = src /\ y = dst).
  { unfold map_zero_to_none in H. destruct (x =? 0), (y =? 0); cbn [obind] in H; try discriminate. injection H as <- <-. auto. }
  destruct Exy as (-> & ->). clear H. unfold swap_b_to_a in E. unfold b_up.
  assert (Ea : dfs_new a = Val (a * ONE)).
  { apply dfs_new_val. unfold is_u64, u64_max, u256_max in *. change ONE with (10 ^ 18). lia. }
  rewrite Ea in E. cbn [obind] in E.
  destruct (b_value_with_amt_a_locked c (a * ONE) true) as [b0 | |]; cbn [obind] in E; try discriminate.
  destruct (dfs_new n) as [n0 | |]; cbn [obind] in E; try discriminate.
  destruct (dfs_unsigned_sub b0 n0) as [x neg]. destruct (dfs_ceiling x) as [e | |]; cbn [obind] in E; try discriminate.
  destruct neg.
  - right. exists b0. split; [reflexivity |]. destruct (dfs_to_imprecise b0) as [t | |]; cbn [obind] in E; try discriminate.
    injection E as -> _. reflexivity.
  - left. inv. reflexivity.
Qed.

Lemma lstep_buy c a b x src dst : linear_wf c -> is_u64 a -> is_u64 b -> is_u64 src -> a + src <= u64_max -> dst <= b ->
  linear_swap c src a b AtoB = Val (src, dst) ->
  lstep c no_fees (mk_lpool a b x) (Buy src) = mk_lpool (a + src) (b - dst) (x + dst) /\ 0 < src /\ 0 < dst <= b.
Proof.
  intros Hc Ua Ub Us Hs Hd H.
  pose proof (linear_swap_a_to_b _ _ _ _ _ _ Hc Ua Us Ub H) as (_ & P1 & P2 & _).
  assert (R : curve_swap (LinearPrice c) src a b AtoB no_fees = Val (mk_swap_result (a + src) (b - dst) src dst 0 0)).
  { apply feeless_swap; [exact no_fees_feeless | exact Us |]. cbn. unfold is_u64, u64_max, u128_max in *.
    repeat split; [exact H | lia | lia | lia]. }
  cbn [lstep held left sold]. rewrite R. cbn [new_swap_source_amount new_swap_destination_amount destination_amount_swapped].
  unfold is_u64 in *. replace (0 <=? src) with true by (symmetry; apply Z.leb_le; lia).
  replace (src <=? u64_max) with true by (symmetry; apply Z.leb_le; lia).
  replace (a + src <=? u64_max) with true by (symmetry; apply Z.leb_le; lia). cbn [andb]. split; [reflexivity | lia].
Qed.

Lemma lstep_sell c a b x src dst : linear_wf c -> is_u64 a -> is_u64 b -> is_u64 src -> b + src <= u64_max ->
  linear_swap c src b a BtoA = Val (src, dst) ->
  lstep c no_fees (mk_lpool a b x) (Sell src) = mk_lpool (a - dst) (b + src) (x - src) /\ 0 < src /\ 0 < dst <= a.
Proof.
  intros Hc Ua Ub Us Hs H. pose proof (linear_swap_bounds _ _ _ _ _ _ _ Hc Us Ub Ua H) as (_ & _ & B). specialize (B eq_refl).
  pose proof (linear_swap_b_to_a _ _ _ _ _ _ Hc Ua Us Ub H) as (_ & P1 & P2 & _).
  assert (R : curve_swap (LinearPrice c) src b a BtoA no_fees = Val (mk_swap_result (b + src) (a - dst) src dst 0 0)).
  { apply feeless_swap; [exact no_fees_feeless | exact Us |]. cbn. unfold is_u64, u64_max, u128_max in *.
    repeat split; [exact H | lia | lia | lia]. }
  cbn [lstep held left sold]. rewrite R. cbn [new_swap_source_amount new_swap_destination_amount source_amount_swapped].
  unfold is_u64 in *. replace (0 <=? src) with true by (symmetry; apply Z.leb_le; lia).
  replace (src <=? u64_max) with true by (symmetry; apply Z.leb_le; lia).
  replace (b + src <=? u64_max) with true by (symmetry; apply Z.leb_le; lia). cbn [andb]. split; [reflexivity | lia].
Qed.

(** What is taken is not negative, whatever is offered. *)
Lemma imprecise_nonneg x n : 0 <= x -> dfs_to_imprecise x = Val n -> 0 <= n.
Proof.
  intros Hx H. unfold dfs_to_imprecise in H. pose proof HALF_ONE. pose proof ONE_pos. inv.
  destruct (_ <=? _); [| discriminate]. match goal with H : Val _ = Val n |- _ => injection H as <- end. apply Z.div_pos; lia.
Qed.

Lemma buy_nonneg c s a b src dst : 0 <= s -> 0 <= b -> linear_swap c s a b AtoB = Val (src, dst) -> 0 < src /\ 0 < dst.
Proof.
  intros Hs Hb H. unfold linear_swap in *. destruct (swap_a_to_b c s a b) as [[x y] | |] eqn:E; try discriminate. cbn [obind] in H.
  assert (Exy : x = src /\ y = dst /\ src <> 0 /\ dst <> 0).
  { unfold map_zero_to_none in H. destruct (Z.eqb_spec x 0), (Z.eqb_spec y 0); cbn [obind] in H; try discriminate.
    injection H as <- <-. auto. }
  destruct Exy as (-> & -> & N1 & N2). cut (0 <= src /\ 0 <= dst); [lia |]. clear H. unfold swap_a_to_b in E.
  destruct (dfs_new a) as [a0 | |]; cbn [obind] in *; try discriminate.
  destruct (b_value_with_amt_a_locked c a0 true) as [b0 | |]; cbn [obind] in *; try discriminate.
  destruct (maximum_a_remaining c a0 b0 s b) as [r | |] eqn:Em.
  - injection E as ->. unfold maximum_a_remaining in Em.
    repeat match goal with H : obind ?m _ = Val _ |- _ => destruct m eqn:?; cbn [obind] in *; try discriminate end.
    destruct (_ <=? s) in Em; [| discriminate]. injection Em as -> ->.
    match goal with H : dfs_sub _ _ = Val _ |- _ => unfold dfs_sub, csub in H; destruct (Z.leb_spec a0 a3); [injection H as <- | discriminate] end.
    split; [| exact Hb]. eapply imprecise_nonneg; [| eassumption]. lia.
  - repeat match goal with H : obind ?m _ = Val _ |- _ => destruct m eqn:?; cbn [obind] in *; try discriminate end.
    injection E as <- <-. split; [exact Hs |].
    match goal with H : dfs_to_imprecise _ = Val _ |- _ => apply imprecise_nonneg in H; [exact H |] end.
    match goal with H : dfs_floor _ = Val _ |- _ => unfold dfs_floor in H; inv end.
    match goal with H : dfs_sub _ _ = Val _ |- _ => unfold dfs_sub, csub in H end. pose proof ONE_pos.
    match goal with H : (if ?x <=? ?y then _ else _) = Val _ |- _ => destruct (Z.leb_spec x y); [injection H as <- | discriminate] end.
    apply Z.mul_nonneg_nonneg; [apply Z.div_pos |]; lia.
  - discriminate.
Qed.

(** ** The purchases *)
Lemma buy_all_run rounds c supply step a b a' : linear_wf c -> 0 <= step -> is_u64 supply -> 0 <= a -> 0 <= b <= supply ->
  buy_all rounds c supply step a b = Some (Go a') ->
  a <= a' /\ (0 < b -> a < a') /\ (a' <= u64_max -> exists ops, Forall no_topup ops /\
    lrun c no_fees (mk_lpool a b (supply - b)) ops = mk_lpool a' 0 supply).
Proof.
  intros Hc Hstep Us. revert a b. induction rounds as [| rounds IH]; intros a b Ha Hb H; [discriminate |].
  cbn [buy_all] in H. destruct (Z.ltb_spec 0 b) as [L | L].
  2:{ injection H as <-. split; [lia |]. split; [lia |]. intros _. exists []. replace b with 0 by lia. rewrite Z.sub_0_r.
      split; [constructor | reflexivity]. }
  apply rbind_go in H. destruct H as (sold0 & E0 & H). apply rbind_go in H. destruct H as (offer & E1 & H).
  apply rbind_go in H. destruct H as ((src & dst) & E & H). apply rbind_go in H. destruct H as (a1 & E2 & H).
  apply rbind_go in H. destruct H as (b1 & E3 & H). injection E1 as E1. injection E2 as E2. injection E3 as E3.
  apply buy_offer_nonneg in E1. apply tadd_go in E2. subst a1. apply tsub_go in E3. destruct E3 as (-> & Hd).
  apply raise_offer_val in E; [| assumption | assumption]. destruct E as (n & Hn & E).
  destruct (buy_nonneg c n a b src dst Hn ltac:(lia) E) as (P1 & P2). apply buy_exact in E.
  apply IH in H; [| lia | lia]. destruct H as (M & _ & R). split; [lia |]. split; [lia |]. intros Ha'.
  destruct (R Ha') as (ops & F & Run). exists (Buy src :: ops). split; [constructor; [exact I | exact F] |].
  change (lrun c no_fees (mk_lpool a b (supply - b)) (Buy src :: ops)) with
    (lrun c no_fees (lstep c no_fees (mk_lpool a b (supply - b)) (Buy src)) ops).
  unfold is_u64 in *. destruct (lstep_buy c a b (supply - b) src dst Hc) as (-> & _); unfold is_u64; try lia; [exact E |].
  replace (supply - b + dst) with (supply - (b - dst)) by ring. exact Run.
Qed.

(** ** The sales *)
Lemma sell_nonneg c n b a src dst : linear_pos c -> 0 <= n -> is_u64 a -> linear_swap c n b a BtoA = Val (src, dst) ->
  0 < src /\ 0 < dst.
Proof.
  intros Hp Hn Ua H. pose proof (sell_exact c n b a src dst Ua H) as X.
  assert (0 <= src).
  { destruct X as [-> | (b0 & Hb0 & Hi)]; [exact Hn |]. unfold is_u64, u64_max in Ua.
    pose proof (b_up_bounds c a b0 Hp ltac:(lia) Hb0). eapply imprecise_nonneg; [| exact Hi]. lia. }
  unfold linear_swap in *. destruct (swap_b_to_a c n b a) as [[x y] | |] eqn:E; try discriminate. cbn [obind] in H.
  assert (Exy : x = src /\ y = dst /\ src <> 0 /\ dst <> 0).
  { unfold map_zero_to_none in H. destruct (Z.eqb_spec x 0), (Z.eqb_spec y 0); cbn [obind] in H; try discriminate.
    injection H as <- <-. auto. }
  destruct Exy as (-> & -> & N1 & N2). cut (0 <= dst); [lia |]. clear H X. unfold swap_b_to_a in E. unfold is_u64 in Ua.
  destruct (dfs_new a) as [a0 | |]; cbn [obind] in *; try discriminate.
  destruct (b_value_with_amt_a_locked c a0 true) as [b0 | |]; cbn [obind] in *; try discriminate.
  destruct (dfs_new n) as [n0 | |]; cbn [obind] in E; try discriminate.
  destruct (dfs_unsigned_sub b0 n0) as [x neg]. destruct (dfs_ceiling x) as [e | |]; cbn [obind] in E; try discriminate.
  destruct neg.
  - destruct (dfs_to_imprecise b0) as [t | |]; cbn [obind] in E; try discriminate. injection E as _ <-. lia.
  - repeat match goal with H : obind ?m _ = Val _ |- _ => destruct m eqn:?; cbn [obind] in *; try discriminate end.
    injection E as <- <-.
    match goal with H : dfs_to_imprecise _ = Val _ |- _ => apply imprecise_nonneg in H; [exact H |] end.
    match goal with H : dfs_floor _ = Val _ |- _ => unfold dfs_floor in H; inv end.
    match goal with H : dfs_sub _ _ = Val _ |- _ => unfold dfs_sub, csub in H end. pose proof ONE_pos.
    match goal with H : (if ?x <=? ?y then _ else _) = Val _ |- _ => destruct (Z.leb_spec x y); [injection H as <- | discriminate] end.
    apply Z.mul_nonneg_nonneg; [apply Z.div_pos |]; lia.
Qed.

Lemma sell_round rounds c step a b b' : linear_pos c -> 0 <= step -> is_u64 a -> 0 < a ->
  sell_all (S rounds) c step a b = Some (Go b') ->
  exists n src dst, 0 <= n /\ linear_swap c n b a BtoA = Val (src, dst) /\ 0 < src /\ 0 < dst <= a /\
    sell_all rounds c step (a - dst) (b + src) = Some (Go b').
Proof.
  intros Hp Hstep Ua L H. cbn [sell_all] in H. replace (0 <? a) with true in H by (symmetry; apply Z.ltb_lt; exact L).
  apply rbind_go in H. destruct H as (offer & E1 & H).
  apply rbind_go in H. destruct H as ((src & dst) & E & H). apply rbind_go in H. destruct H as (b1 & E2 & H).
  apply rbind_go in H. destruct H as (a1 & E3 & H). injection E1 as E1. injection E2 as E2. injection E3 as E3.
  apply sell_offer_nonneg in E1. apply tadd_go in E2. subst b1. apply tsub_go in E3. destruct E3 as (-> & Hd).
  apply raise_offer_val in E; [| assumption | assumption]. destruct E as (n & Hn & E).
  destruct (sell_nonneg c n b a src dst Hp Hn Ua E) as (P1 & P2). exists n, src, dst. repeat split; assumption.
Qed.

Lemma sell_all_mono rounds c step a b b' : linear_pos c -> 0 <= step -> is_u64 a ->
  sell_all rounds c step a b = Some (Go b') -> b <= b'.
Proof.
  intros Hp Hstep. revert a b. induction rounds as [| rounds IH]; intros a b Ua H; [discriminate |].
  destruct (Z.le_gt_cases a 0) as [L | L].
  { cbn [sell_all] in H. replace (0 <? a) with false in H by (symmetry; apply Z.ltb_ge; exact L). injection H as <-. lia. }
  destruct (sell_round _ _ _ _ _ _ Hp Hstep Ua L H) as (n & src & dst & _ & _ & P1 & P2 & R).
  apply IH in R; [lia |]. unfold is_u64 in *. lia.
Qed.

Lemma sell_all_run rounds c T step S a b b' : linear_pos c -> fine c T -> costly c T -> 0 <= step -> is_u64 S -> is_u64 a ->
  is_u64 b -> covered c T HALF (short c) (S * ONE) (mk_lpool a b (S - b)) ->
  sell_all rounds c step a b = Some (Go b') -> S <= b'.
Proof.
  intros Hp HF Hcy Hstep US. revert a b. induction rounds as [| rounds IH]; intros a b Ua Ub C H; [discriminate |].
  assert (Tt : total (mk_lpool a b (S - b)) = S) by (unfold total; cbn [sold left]; lia).
  assert (C0 : covered c T HALF (short c) (total (mk_lpool a b (S - b)) * ONE) (mk_lpool a b (S - b))) by (rewrite Tt; exact C).
  destruct (Z.le_gt_cases a 0) as [L | L].
  { cbn [sell_all] in H. replace (0 <? a) with false in H by (symmetry; apply Z.ltb_ge; exact L). injection H as <-.
    unfold is_u64 in *. destruct (Z.eq_dec S 0); [lia |].
    apply covered_drained in C0; try assumption; rewrite ?Tt in *; cbn [held left] in *; try lia. apply HF. }
  destruct (sell_round _ _ _ _ _ _ Hp Hstep Ua L H) as (n & src & dst & Hn & E & P1 & P2 & R).
  assert (Ua' : is_u64 (a - dst)) by (unfold is_u64 in *; lia).
  destruct (Z.le_gt_cases S (b + src)) as [G | G].
  { apply sell_all_mono in R; try assumption. lia. }
  destruct (sell_exact c n b a src dst Ua E) as [-> | (b0 & Hb0 & Hi)].
  - unfold is_u64 in US, Ub. destruct (lstep_sell c a b (S - b) n dst (proj1 Hp)) as (St & _); unfold is_u64; try lia; try assumption.
    pose proof (covered_run_always c no_fees T (mk_lpool a b (S - b)) [Sell n] Hp no_fees_feeless HF Hcy (conj Ua (conj (proj1 Ub) (proj2 Ub))) ltac:(lia)
      ltac:(repeat constructor) C0) as (_ & C'). cbn [lrun fold_left] in C'.
    change (lrun c no_fees (mk_lpool a b (S - b)) [Sell n]) with (lstep c no_fees (mk_lpool a b (S - b)) (Sell n)) in C'.
    rewrite St in C'. apply IH in R; [exact R | assumption | unfold is_u64; lia |].
    unfold total in C'. cbn [sold left] in C'. replace (S - b - n + (b + n)) with S in C' by lia.
    replace (S - (b + n)) with (S - b - n) by lia. exact C'.
  - exfalso. destruct C as (Nr & _). pose proof (Nr a b0) as N. cbn [held left] in N. unfold is_u64, u64_max in Ua.
    specialize (N ltac:(unfold u64_max; lia) Hb0).
    assert (Sl : slack (mk_lpool a b (S - b)) HALF T <= HALF).
    { destruct (costly_small c T Hp Hcy) as (H4 & _). pose proof HALF_ONE. pose proof ONE_pos. apply slack_le; lia. }
    pose proof (b_up_bounds c a b0 Hp ltac:(lia) Hb0) as B0.
    apply dfs_to_imprecise_spec in Hi; [| unfold is_u256, u256_max; change (2 ^ 190) with 1569275433846670190958947355801916604025588861116008628224 in B0; lia].
    pose proof HALF_ONE. pose proof ONE_pos as HO.
    assert ((src + 1) * ONE <= (S - b) * ONE) by (apply Z.mul_le_mono_nonneg_r; lia). lia.
Qed.

Lemma unwrap_broke {A} (m : outcome A) v : unwrap m = Stop v -> v = Broke.
Proof. destruct m; cbn [unwrap]; intros H; congruence. Qed.

Lemma tbind_broke {A B} (m : test A) (k : A -> test B) v : (forall u, m = Stop u -> u = Broke) ->
  (forall x u, k x = Stop u -> u = Broke) -> tbind m k = Stop v -> v = Broke.
Proof. intros H1 H2 H. destruct m; cbn [tbind] in H; [eapply H2; exact H | injection H as <-; apply H1; reflexivity]. Qed.

Lemma rbind_broke {A B} (m : option (test A)) (k : A -> option (test B)) v : (forall u, m = Some (Stop u) -> u = Broke) ->
  (forall x u, k x = Some (Stop u) -> u = Broke) -> rbind m k = Some (Stop v) -> v = Broke.
Proof.
  intros H1 H2 H. destruct m as [[x | u] |]; cbn [rbind] in H; [eapply H2; exact H | injection H as <-; apply H1; reflexivity | discriminate].
Qed.

Lemma some_broke {A} (m : test A) v : (forall u, m = Stop u -> u = Broke) -> Some m = Some (Stop v) -> v = Broke.
Proof. intros H E. injection E as E. apply H. exact E. Qed.

Lemma first_offer_broke n step v : first_offer n step = Stop v -> v = Broke.
Proof. apply tbind_broke; [intros u; apply unwrap_broke | discriminate]. Qed.

Lemma whole_broke m v : whole m = Stop v -> v = Broke.
Proof. apply tbind_broke; [intros u; apply unwrap_broke | intros x u; apply unwrap_broke]. Qed.

Lemma buy_offer_broke c step x v : buy_offer c step x = Stop v -> v = Broke.
Proof.
  unfold buy_offer. revert v. do 5 (intros ?v; apply tbind_broke; [intros u; first [apply unwrap_broke | apply whole_broke] | intros ? u; revert u]).
  intros u. apply first_offer_broke.
Qed.

Lemma sell_offer_broke c step x v : sell_offer c step x = Stop v -> v = Broke.
Proof.
  unfold sell_offer. revert v. do 5 (intros ?v; apply tbind_broke; [intros u; first [apply unwrap_broke | apply whole_broke] | intros ? u; revert u]).
  intros u. apply first_offer_broke.
Qed.

Lemma raise_offer_broke rounds trade step offer v : raise_offer rounds trade step offer = Some (Stop v) -> v = Broke.
Proof.
  revert offer v. induction rounds as [| rounds IH]; intros offer v; [discriminate |]. cbn [raise_offer].
  destruct (trade offer); [discriminate | | congruence].
  apply rbind_broke; [intros u; apply some_broke; intros u'; apply unwrap_broke | intros x u; apply IH].
Qed.

Lemma buy_all_broke rounds c supply step a b v : buy_all rounds c supply step a b = Some (Stop v) -> v = Broke.
Proof.
  revert a b v. induction rounds as [| rounds IH]; intros a b v; [discriminate |]. cbn [buy_all].
  destruct (0 <? b); [| discriminate].
  apply rbind_broke; [intros u; apply some_broke; intros u'; apply unwrap_broke | intros x ?v].
  apply rbind_broke; [intros u; apply some_broke; intros u'; apply buy_offer_broke | intros y ?v].
  apply rbind_broke; [intros u; apply raise_offer_broke | intros [src dst] ?v].
  apply rbind_broke; [intros u; apply some_broke; intros u'; apply unwrap_broke | intros z ?v].
  apply rbind_broke; [intros u; apply some_broke; intros u'; apply unwrap_broke | intros w u; apply IH].
Qed.

Lemma sell_all_broke rounds c step a b v : sell_all rounds c step a b = Some (Stop v) -> v = Broke.
Proof.
  revert a b v. induction rounds as [| rounds IH]; intros a b v; [discriminate |]. cbn [sell_all].
  destruct (0 <? a); [| discriminate].
  apply rbind_broke; [intros u; apply some_broke; intros u'; apply sell_offer_broke | intros y ?v].
  apply rbind_broke; [intros u; apply raise_offer_broke | intros [src dst] ?v].
  apply rbind_broke; [intros u; apply some_broke; intros u'; apply unwrap_broke | intros z ?v].
  apply rbind_broke; [intros u; apply some_broke; intros u'; apply unwrap_broke | intros w u; apply IH].
Qed.

Lemma bought_covered rounds c T supply step a : linear_pos c -> fine c T -> costly c T -> 0 <= step -> is_u64 supply ->
  buy_all rounds c supply step 0 supply = Some (Go a) -> a <= u64_max ->
  (0 < supply -> 0 < a) /\ is_u64 a /\ covered c T HALF (short c) (supply * ONE) (mk_lpool a 0 supply).
Proof.
  intros Hp HF Hcy Hstep Us H Ha. pose proof Us as (U1 & U2).
  destruct (buy_all_run rounds c supply step 0 supply a (proj1 Hp) Hstep Us ltac:(lia) (conj U1 (Z.le_refl _)) H) as (M & P & R).
  destruct (R Ha) as (ops & F & Run). split; [exact P |]. split; [split; lia |].
  assert (Pu : pool_u64 (mk_lpool 0 supply (supply - supply))) by (split; [split; vm_compute; discriminate | exact Us]).
  assert (T0 : total (mk_lpool 0 supply (supply - supply)) = supply) by (unfold total; cbn [sold left]; lia).
  destruct (covered_run_always c no_fees T (mk_lpool 0 supply (supply - supply)) ops Hp no_fees_feeless HF Hcy Pu ltac:(lia) F) as (_ & C).
  { rewrite T0. replace (supply - supply) with 0 by lia.
    destruct (costly_small c T Hp Hcy) as (HT1 & _). pose proof HALF_ONE as HH. pose proof (proj1 HF) as HT0.
    pose proof (start_covered c T HALF (short c) 0 supply 0) as X. rewrite Z.add_0_l in X. apply X; try assumption; try lia.
    - unfold short. apply Z.mul_nonneg_nonneg; [pose proof (cden_pos c Hp); lia | vm_compute; discriminate].
    - split; vm_compute; discriminate.
    - unfold cost_num. rewrite !Z.mul_0_r. lia. }
  rewrite Run in C. unfold total in C. cbn [sold left] in C. rewrite Z.add_0_r in C. exact C.
Qed.

Lemma round_trip_holds rounds c T supply step a v : linear_pos c -> fine c T -> costly c T -> 0 <= step ->
  is_u64 supply -> 0 < supply -> buy_all rounds c supply step 0 supply = Some (Go a) -> a <= u64_max ->
  round_trip rounds c supply step = Some v -> v = Passed \/ v = Broke.
Proof.
  intros Hp HF Hcy Hstep Us Hs Hb Ha H. unfold round_trip in H. rewrite Hb in H. cbn [rbind] in H.
  destruct (bought_covered _ _ _ _ _ _ Hp HF Hcy Hstep Us Hb Ha) as (P & Ua & C). specialize (P Hs).
  replace (0 <? a) with true in H by (symmetry; apply Z.ltb_lt; exact P). cbn [assert rbind] in H.
  destruct (sell_all rounds c step a 0) as [[b | u] |] eqn:E; cbn [rbind option_map] in H.
  - assert (U0 : is_u64 0) by (split; vm_compute; discriminate).
    apply (sell_all_run rounds c T step supply a 0 b Hp HF Hcy Hstep Us Ua U0) in E; [| rewrite Z.sub_0_r; exact C].
    replace (supply <=? b) with true in H by (symmetry; apply Z.leb_le; exact E). cbn in H. injection H as <-. auto.
  - apply sell_all_broke in E. subst u. cbn in H. injection H as <-. auto.
  - discriminate.
Qed.

(** ** More rounds do not change a result *)
Lemma rbind_some {A B} (m : option (test A)) (k : A -> option (test B)) r : rbind m k = Some r ->
  exists x, m = Some x /\ match x with Go y => k y = Some r | Stop v => r = Stop v end.
Proof. destruct m as [[x | v] |]; cbn [rbind]; intros H; try discriminate; eexists; split; try reflexivity; [exact H | congruence]. Qed.

Lemma rbind_more {A B} (m m' : option (test A)) (k k' : A -> option (test B)) r :
  (forall x, m = Some x -> m' = Some x) -> (forall x, k x = Some r -> k' x = Some r) ->
  rbind m k = Some r -> rbind m' k' = Some r.
Proof.
  intros H1 H2 H. apply rbind_some in H. destruct H as (x & E & H). rewrite (H1 _ E). cbn [rbind].
  destruct x; [apply H2; exact H | congruence].
Qed.

Lemma raise_offer_more n m trade step offer r : (n <= m)%nat -> raise_offer n trade step offer = Some r ->
  raise_offer m trade step offer = Some r.
Proof.
  revert m offer. induction n as [| n IH]; intros m offer L H; [discriminate |].
  destruct m as [| m]; [lia |]. cbn [raise_offer] in *. destruct (trade offer); try exact H.
  revert H. apply rbind_more; [auto |]. intros x. apply IH. lia.
Qed.

Lemma buy_all_more n m c supply step a b r : (n <= m)%nat -> buy_all n c supply step a b = Some r ->
  buy_all m c supply step a b = Some r.
Proof.
  revert m a b. induction n as [| n IH]; intros m a b L H; [discriminate |].
  destruct m as [| m]; [lia |]. cbn [buy_all] in *. destruct (0 <? b); [| exact H]. revert H.
  apply rbind_more; [auto |]. intros x. apply rbind_more; [auto |]. intros y.
  apply rbind_more; [intros z; apply raise_offer_more; lia |]. intros [src dst].
  apply rbind_more; [auto |]. intros z. apply rbind_more; [auto |]. intros w. apply IH. lia.
Qed.

Lemma sell_all_more n m c step a b r : (n <= m)%nat -> sell_all n c step a b = Some r -> sell_all m c step a b = Some r.
Proof.
  revert m a b. induction n as [| n IH]; intros m a b L H; [discriminate |].
  destruct m as [| m]; [lia |]. cbn [sell_all] in *. destruct (0 <? a); [| exact H]. revert H.
  apply rbind_more; [auto |]. intros y.
  apply rbind_more; [intros z; apply raise_offer_more; lia |]. intros [src dst].
  apply rbind_more; [auto |]. intros z. apply rbind_more; [auto |]. intros w. apply IH. lia.
Qed.

Lemma round_trip_more n m c supply step v : (n <= m)%nat -> round_trip n c supply step = Some v ->
  round_trip m c supply step = Some v.
Proof.
  intros L. unfold round_trip. intros H.
  match type of H with option_map _ ?x = _ => destruct x as [r |] eqn:E; [| discriminate] end.
  revert E. match goal with |- ?x = _ -> option_map _ ?y = _ => intros E; assert (X : y = Some r); [revert E | rewrite X; exact H] end.
  apply rbind_more; [intros x; apply buy_all_more; exact L |]. intros x. apply rbind_more; [auto |]. intros y.
  apply rbind_more; [intros z; apply sell_all_more; exact L | auto].
Qed.

Lemma round_trip_fails : exists c supply step, linear_validate c = Ok tt /\
  forall rounds, (8 <= rounds)%nat -> buy_all rounds c supply step 0 supply = Some (Go 2) /\
    sell_all rounds c step 2 0 = Some (Go (supply - 1)) /\ round_trip rounds c supply step = Some Violated.
Proof.
  exists (mk_linear 1 127 0 750), 24, 47. split; [vm_compute; reflexivity |]. intros rounds L. repeat split.
  - apply (buy_all_more 8 rounds); [exact L | vm_compute; reflexivity].
  - apply (sell_all_more 8 rounds); [exact L | vm_compute; reflexivity].
  - apply (round_trip_more 8 rounds); [exact L | vm_compute; reflexivity].
Qed.

Lemma round_trip_passes rounds c T supply step a v :
  linear_wf c -> linear_validate c = Ok tt -> fine c T -> costly c T -> 0 <= step -> is_u64 supply -> 0 < supply ->
  buy_all rounds c supply step 0 supply = Some (Go a) -> a <= u64_max ->
  round_trip rounds c supply step = Some v -> v = Passed \/ v = Broke.
Proof. intros Hc Hv. apply round_trip_holds. apply validated_pos; assumption. Qed.
