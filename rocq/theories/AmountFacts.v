(** Amounts computed by the curves are never negative. *)
From Verif Require Import Ints Tactics SplMath Fees LinearCurve ConstantPrice ConstantProduct OffsetCurve
  StableCurve SwapCurve Spec CurveFacts LinearFacts SwapFacts.

Ltac obs H := repeat match type of H with
  | obind _ _ = Val _ => apply obind_val in H; let v := fresh "v" in let E := fresh "E" in destruct H as (v & E & H)
  end.

Lemma SPL_pos : 0 < SPL_ONE /\ 0 < SPL_HALF.
Proof. split; reflexivity. Qed.

Lemma cdiv_nonneg a b c : 0 <= a -> 0 <= b -> cdiv a b = Val c -> 0 <= c.
Proof. intros Ha Hb H. apply cdiv_val in H. destruct H as [-> N]. apply Z.div_pos; lia. Qed.
Lemma mul_in_nonneg m a b c : 0 <= a -> 0 <= b -> mul_in m a b = Val c -> 0 <= c.
Proof. intros Ha Hb H. apply mul_in_val in H. destruct H as [-> N]. now apply Z.mul_nonneg_nonneg. Qed.
Lemma add_in_nonneg m a b c : 0 <= a -> 0 <= b -> add_in m a b = Val c -> 0 <= c.
Proof. intros Ha Hb H. apply add_in_val in H. lia. Qed.
Lemma csub_nonneg a b c : csub a b = Val c -> 0 <= c.
Proof. intros H. apply csub_val in H. lia. Qed.

Lemma spl_mul_nonneg x y z : 0 <= x -> 0 <= y -> spl_mul x y = Val z -> 0 <= z.
Proof.
  intros Hx Hy H. pose proof SPL_pos. unfold spl_mul in H.
  destruct (mul_in u256_max x y) eqn:E; [| | discriminate].
  - apply mul_in_nonneg in E; try assumption. obs H. apply cdiv_nonneg in H; try lia.
    eapply add_in_nonneg; [| | eassumption]; lia.
  - destruct (y <=? x); obs H; (eapply mul_in_nonneg; [| | exact H]); try assumption;
      (eapply cdiv_nonneg; [| | eassumption]); lia.
Qed.
Lemma spl_div_nonneg x y z : 0 <= x -> 0 <= y -> spl_div x y = Val z -> 0 <= z.
Proof.
  intros Hx Hy H. pose proof SPL_pos. unfold spl_div in H.
  destruct (Z.eqb_spec y 0); [discriminate |].
  destruct (mul_in u256_max x SPL_ONE) eqn:E; [| | discriminate].
  - apply mul_in_nonneg in E; try lia. obs H. apply cdiv_nonneg in H; try lia.
    eapply add_in_nonneg; [| | eassumption]; lia.
  - obs H. (eapply mul_in_nonneg; [| | exact H]); try lia.
    (eapply cdiv_nonneg; [| | eassumption]); try lia. eapply add_in_nonneg; [| | eassumption]; lia.
Qed.
Lemma spl_ceiling_nonneg x z : 0 <= x -> spl_ceiling x = Val z -> 0 <= z.
Proof.
  intros Hx H. pose proof SPL_pos. unfold spl_ceiling in H. obs H.
  apply add_in_nonneg in E; try lia. apply cdiv_nonneg in E0; try lia. eapply mul_in_nonneg; [| | exact H]; lia.
Qed.
Lemma spl_floor_nonneg x z : 0 <= x -> spl_floor x = Val z -> 0 <= z.
Proof.
  intros Hx H. pose proof SPL_pos. unfold spl_floor in H. obs H.
  apply cdiv_nonneg in E; try lia. eapply mul_in_nonneg; [| | exact H]; lia.
Qed.
Lemma spl_to_imprecise_nonneg x z : 0 <= x -> spl_to_imprecise x = Val z -> 0 <= z.
Proof.
  intros Hx H. pose proof SPL_pos. unfold spl_to_imprecise in H. obs H.
  apply add_in_nonneg in E; try lia. apply cdiv_nonneg in E0; try lia. apply as_u128_val in H. lia.
Qed.
Lemma spl_new_nonneg x z : 0 <= x -> spl_new x = Val z -> 0 <= z.
Proof. intros Hx H. pose proof SPL_pos. eapply mul_in_nonneg; [| | exact H]; lia. Qed.
Lemma round_precise_nonneg r x z : 0 <= x -> round_precise r x = Val z -> 0 <= z.
Proof.
  intros Hx H. destruct r; cbn [round_precise] in H; obs H;
    (eapply spl_to_imprecise_nonneg; [| exact H]).
  - eapply spl_floor_nonneg; eassumption.
  - eapply spl_ceiling_nonneg; eassumption.
Qed.

Lemma cprod_withdraw_single_nonneg source a b supply d r t : 0 <= supply ->
  cprod_withdraw_single source a b supply d r = Val t -> 0 <= t.
Proof.
  intros Hs H. unfold cprod_withdraw_single in H. cbv zeta in H. obs H.
  eapply round_precise_nonneg; [| exact H].
  match goal with E : spl_mul _ _ = Val _ |- _ => eapply spl_mul_nonneg; [| | exact E] end.
  - eapply spl_new_nonneg; [| eassumption]. assumption.
  - match goal with E : spl_sub _ _ = Val ?x |- 0 <= ?x => exact (csub_nonneg _ _ _ E) end.
Qed.
Lemma cprod_deposit_single_nonneg source a b supply d r t : 0 <= supply ->
  cprod_deposit_single source a b supply d r = Val t -> 0 <= t.
Proof.
  intros Hs H. unfold cprod_deposit_single in H. cbv zeta in H. obs H.
  eapply round_precise_nonneg; [| exact H].
  match goal with E : spl_mul _ _ = Val _ |- _ => eapply spl_mul_nonneg; [| | exact E] end.
  - eapply spl_new_nonneg; [| eassumption]. assumption.
  - match goal with E : spl_sub _ _ = Val ?x |- 0 <= ?x => exact (csub_nonneg _ _ _ E) end.
Qed.

Lemma compute_d_nonneg' l a b r : 0 <= l -> 0 <= a -> 0 <= b -> compute_d l a b = Val r -> 0 <= r.
Proof.
  intros Hl Ha Hb H. destruct (Z.eq_dec l 0) as [-> | N]; [| eapply compute_d_nonneg; [| | | eassumption]; lia].
  unfold compute_d in H. obs H.
  match type of H with (if ?c then _ else _) = _ => destruct c end; [injection H as <-; lia |].
  obs H. exfalso.
  match goal with E : compute_d_loop _ _ _ _ _ _ = Val _ |- _ => unfold ITERATIONS in E; cbn [compute_d_loop] in E; rename E into L end.
  obs L.
  match goal with E : calculate_step _ _ _ _ = Val _ |- _ => unfold calculate_step in E; rename E into Ec end.
  obs Ec.
  match goal with E : csub 0 1 = Val _ |- _ => apply csub_val in E; lia end.
Qed.

Lemma stable_withdraw_single_nonneg amp source a b supply d t :
  0 <= amp -> 0 <= a -> 0 <= b -> 0 <= supply ->
  stable_withdraw_single amp source a b supply d = Val t -> 0 <= t.
Proof.
  intros Hamp Ha Hb Hsu H. unfold stable_withdraw_single in H.
  destruct (source =? 0); [injection H as <-; lia |].
  apply obind_val in H. destruct H as (l & El & H). apply mul_in_val in El. unfold N_COINS in El.
  apply obind_val in H. destruct H as (d0c & Ed0 & H). apply compute_d_nonneg' in Ed0; try lia.
  apply obind_val in H. destruct H as (d0 & Ed0' & H). apply spl_new_nonneg in Ed0'; try lia.
  destruct d; obs H;
    (eapply spl_to_imprecise_nonneg; [| exact H]); (eapply spl_ceiling_nonneg; [| eassumption]);
    (eapply spl_div_nonneg; [| | eassumption]); try assumption;
    match goal with E : spl_mul _ _ = Val _ |- _ => eapply spl_mul_nonneg; [| | exact E] end;
    try match goal with E : spl_sub _ _ = Val ?x |- 0 <= ?x => exact (csub_nonneg _ _ _ E) end;
    (eapply spl_new_nonneg; [| eassumption]; assumption).
Qed.

Lemma cprice_single_nonneg p source a b supply d r t :
  0 <= p -> 0 <= source -> 0 <= a -> 0 <= b -> 0 <= supply ->
  trading_tokens_to_pool_tokens p source a b supply d r = Val t -> 0 <= t.
Proof.
  intros Hp Hs Ha Hb Hsu H. unfold trading_tokens_to_pool_tokens in H.
  apply obind_val in H. destruct H as (g & Eg & H).
  assert (0 <= g).
  { destruct d; [injection Eg as <-; assumption |]. eapply mul_in_nonneg; [| | exact Eg]; assumption. }
  apply obind_val in H. destruct H as (bv & Eb & H). apply mul_in_nonneg in Eb; try assumption.
  apply obind_val in H. destruct H as (tv & Et & H). apply add_in_nonneg in Et; try assumption.
  destruct r; obs H.
  - apply as_u128_val in H. destruct H as [-> _]. apply mul_in_nonneg in E; try assumption.
    eapply cdiv_nonneg; [| | eassumption]; assumption.
  - destruct v0 as [q y]. apply as_u128_val in H. destruct H as [-> _].
    apply mul_in_nonneg in E; try assumption.
    apply ceil_div_spec in E0; lia.
Qed.


Lemma bump_nonneg x r y : 0 <= x -> bump_if_inexact x r = Val y -> 0 <= y.
Proof.
  intros Hx H. unfold bump_if_inexact in H. destruct (_ && _).
  - unfold add_or_panic in H. destruct (_ <=? _); [injection H as <-; lia | discriminate].
  - injection H as <-. assumption.
Qed.
Lemma ratio_nonneg n supply a b r x y :
  0 <= n -> 0 <= supply -> 0 <= a -> 0 <= b ->
  ratio_pool_tokens_to_trading_tokens n supply a b r = Val (x, y) -> 0 <= x /\ 0 <= y.
Proof.
  intros Hn Hs Ha Hb H. unfold ratio_pool_tokens_to_trading_tokens in H.
  apply obind_val in H. destruct H as (na & E1 & H). apply mul_in_nonneg in E1; try assumption.
  apply obind_val in H. destruct H as (xa & E2 & H). apply cdiv_nonneg in E2; try assumption.
  apply obind_val in H. destruct H as (nb & E3 & H). apply mul_in_nonneg in E3; try assumption.
  apply obind_val in H. destruct H as (xb & E4 & H). apply cdiv_nonneg in E4; try assumption.
  destruct r.
  - injection H as <- <-. auto.
  - obs H. injection H as <- <-. split; (eapply bump_nonneg; [| eassumption]; assumption).
Qed.
Lemma ceil_nonneg m a b q y : 0 <= a -> 0 <= b -> checked_ceil_div m a b = Val (q, y) -> 0 <= q.
Proof. intros Ha Hb H. apply ceil_div_spec in H; lia. Qed.

Lemma cprice_norm_nonneg p a b v : 0 <= p -> 0 <= a -> 0 <= b -> cprice_normalized_value p a b = Val v -> 0 <= v.
Proof.
  intros Hp Ha Hb H. unfold cprice_normalized_value in H.
  apply obind_val in H. destruct H as (bv & E1 & H). apply mul_in_nonneg in E1; try assumption.
  apply obind_val in H. destruct H as (x & E2 & H). eapply spl_new_nonneg; [| exact H].
  match type of E2 with (if ?c then _ else _) = _ => destruct c end; obs E2.
  - apply cdiv_nonneg in E, E0; try lia. eapply add_in_nonneg; [| | exact E2]; lia.
  - apply add_in_nonneg in E; try lia. eapply cdiv_nonneg; [| | exact E2]; lia.
Qed.
Lemma cprice_tokens_nonneg p n supply a b r x y :
  0 <= p -> 0 <= n -> 0 <= supply -> 0 <= a -> 0 <= b ->
  cprice_pool_tokens_to_trading_tokens p n supply a b r = Val (x, y) -> 0 <= x /\ 0 <= y.
Proof.
  intros Hp Hn Hs Ha Hb H. unfold cprice_pool_tokens_to_trading_tokens in H.
  apply obind_val in H. destruct H as (nv & E1 & H). apply cprice_norm_nonneg in E1; try assumption.
  apply obind_val in H. destruct H as (tv & E2 & H). apply spl_to_imprecise_nonneg in E2; try assumption.
  destruct r.
  - obs H. injection H as <- <-. apply mul_in_nonneg in E; try assumption.
    apply mul_in_nonneg in E3; try assumption.
    apply cdiv_nonneg in E0; try assumption. apply cdiv_nonneg in E4; try assumption.
    apply cdiv_nonneg in E5; auto.
  - apply obind_val in H. destruct H as (w & E3 & H). apply mul_in_nonneg in E3; try assumption.
    apply obind_val in H. destruct H as ([w1 y1] & E4 & H). apply ceil_nonneg in E4; try assumption.
    apply obind_val in H. destruct H as (w2 & E5 & H). apply mul_in_nonneg in E5; try assumption.
    apply obind_val in H. destruct H as ([w3 y3] & E6 & H). apply ceil_nonneg in E6; try assumption.
    apply obind_val in H. destruct H as ([w4 y4] & E7 & H). apply ceil_nonneg in E7; try assumption.
    injection H as <- <-. auto.
Qed.
Lemma tokens_nonneg c n supply a b r x y : curve_wf c ->
  0 <= n -> 0 <= supply -> 0 <= a -> 0 <= b ->
  pool_tokens_to_trading_tokens c n supply a b r = Val (x, y) -> 0 <= x /\ 0 <= y.
Proof.
  intros W Hn Hs Ha Hb H. destruct c; cbn [pool_tokens_to_trading_tokens curve_wf] in *; unfold is_u64 in *.
  - eapply ratio_nonneg; [.. | exact H]; assumption.
  - eapply cprice_tokens_nonneg; [.. | exact H]; lia.
  - eapply ratio_nonneg; [.. | exact H]; assumption.
  - unfold offset_pool_tokens_to_trading_tokens in H. obs H.
    match goal with E : add_in _ _ _ = Val _ |- _ => apply add_in_nonneg in E; try lia end.
    eapply ratio_nonneg; [.. | exact H]; assumption.
  - discriminate.
Qed.
Lemma withdraw_single_nonneg c source a b supply d f t : curve_wf c ->
  0 <= a -> 0 <= b -> 0 <= supply ->
  curve_withdraw_single c source a b supply d f = Val t -> 0 <= t.
Proof.
  intros W Ha Hb Hs H. unfold curve_withdraw_single in H. destruct (source =? 0); [injection H as <-; lia |].
  cbv zeta in H. obs H.
  match goal with E : csub _ _ = Val ?x |- _ => apply csub_nonneg in E end.
  destruct c; cbn [calc_withdraw_single curve_wf] in *; unfold is_u64 in *.
  - eapply cprod_withdraw_single_nonneg; [.. | exact H]; assumption.
  - unfold cprice_withdraw_single in H. eapply cprice_single_nonneg; [.. | exact H]; lia.
  - eapply stable_withdraw_single_nonneg; [.. | exact H]; lia.
  - unfold offset_withdraw_single in H. obs H. eapply cprod_withdraw_single_nonneg; [.. | exact H]; assumption.
  - discriminate.
Qed.
