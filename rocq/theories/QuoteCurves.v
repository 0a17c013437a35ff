(** The quotes of QuoteSpec behind the interface of the program. *)
From Verif Require Import Ints Tactics SplMath Fees LinearCurve ConstantPrice ConstantProduct OffsetCurve
  StableCurve SwapCurve Spec CurveFacts SwapFacts LinearProps QuoteSpec QuoteFacts RootFacts StableFacts.

Lemma fees_exact f x : fees_wf f -> 0 <= x ->
  trading_fee f x = fee_of x (trade_fee_num f) (trade_fee_den f) /\
  owner_trading_fee f x = fee_of x (owner_trade_fee_num f) (owner_trade_fee_den f) /\
  owner_withdraw_fee f x = fee_of x (owner_withdraw_fee_num f) (owner_withdraw_fee_den f) /\
  host_fee f x = fee_of x (host_fee_num f) (host_fee_den f).
Proof.
  intros (H1 & H2 & H3 & H4 & H5 & H6 & H7 & H8) Hx. unfold is_u64 in *.
  split; [| split; [| split]]; apply fee_of_eq; lia.
Qed.

Lemma fee_of_nonneg x num den fee : 0 <= x -> 0 <= num -> 0 <= den -> fee_of x num den = Val fee -> 0 <= fee.
Proof.
  unfold fee_of. intros Hx Hn Hd H. destruct (_ || _); [injection H as <-; lia |].
  destruct (_ || _); [discriminate |]. injection H as <-. lia.
Qed.

Lemma curve_swap_exact c source ss sd d f r :
  curve_wf c -> fees_wf f -> is_u64 source -> is_u64 ss -> is_u64 sd ->
  curve_swap c source ss sd d f = Val r <->
  exists tf of src dst,
    fee_of source (trade_fee_num f) (trade_fee_den f) = Val tf /\
    fee_of source (owner_trade_fee_num f) (owner_trade_fee_den f) = Val of /\
    tf + of <= source /\
    swap_without_fees c (source - (tf + of)) ss sd d = Val (src, dst) /\ dst <= sd /\
    r = mk_swap_result (ss + (src + (tf + of))) (sd - dst) (src + (tf + of)) dst tf of.
Proof.
  intros Hc Hf Hs Hss Hsd. destruct (fees_exact f source Hf ltac:(apply Hs)) as (E1 & E2 & _).
  unfold curve_swap. rewrite E1, E2.
  assert (Hnn : forall tf of, fee_of source (trade_fee_num f) (trade_fee_den f) = Val tf ->
    fee_of source (owner_trade_fee_num f) (owner_trade_fee_den f) = Val of -> 0 <= tf /\ 0 <= of).
  { intros tf of H1 H2. destruct Hf as (G1 & G2 & G3 & G4 & _). unfold is_u64 in *.
    apply fee_of_nonneg in H1; [| lia | lia | lia]. apply fee_of_nonneg in H2; lia. }
  split.
  - intros H. inv. destruct (Hnn _ _ ltac:(eassumption) ltac:(eassumption)).
    do 4 eexists. split; [eassumption |]. split; [eassumption |]. split; [lia |]. split; [eassumption |].
    split; [lia | reflexivity].
  - intros (tf & of & src & dst & H1 & H2 & Hle & Hq & Hd & ->).
    destruct (Hnn _ _ H1 H2) as [Ht Ho]. rewrite H1, H2. cbn [obind].
    assert (Hb : 0 <= src <= source - (tf + of)).
    { assert (Hs' : is_u64 (source - (tf + of))) by (unfold is_u64 in *; lia).
      apply (swap_without_fees_bounds c _ ss sd d src dst Hc Hs' Hss Hsd Hq). }
    unfold is_u64 in *.
    rewrite add_in_eq by (consts; lia). cbn [obind]. rewrite csub_eq by lia. cbn [obind].
    rewrite Hq. cbn [obind]. rewrite add_in_eq by (consts; lia). cbn [obind].
    rewrite add_in_eq by (consts; lia). cbn [obind]. rewrite csub_eq by lia. reflexivity.
Qed.

Lemma half_fee c source a b supply d f (k : Z -> outcome Z) : fees_wf f -> is_u64 source ->
  (forall s, is_u64 s -> calc_deposit_single c s a b supply d = k s) ->
  curve_deposit_single c source a b supply d f = after_half_fee f source k.
Proof.
  intros Hf Hs Hk. unfold curve_deposit_single, after_half_fee.
  destruct (Z.eqb_spec source 0); [reflexivity |]. rewrite cdiv_eq by discriminate. cbn [obind].
  unfold is_u64 in Hs. destruct (fees_exact f (Z.max 1 (source / 2)) Hf ltac:(lia)) as (E & _). rewrite E.
  destruct (fee_of _ _ _) as [fee | |] eqn:Ef; [| reflexivity |].
  - cbn [obind]. apply fee_of_nonneg in Ef; [| lia | destruct Hf; unfold is_u64 in *; lia | destruct Hf as (_ & ? & _); unfold is_u64 in *; lia].
    unfold csub. rewrite Z.leb_antisym. destruct (Z.ltb_spec source fee); cbn [negb obind]; [reflexivity |].
    apply Hk. unfold is_u64. lia.
  - unfold fee_of in Ef. destruct (_ || _); [discriminate |]. destruct (_ || _); discriminate.
Qed.

Lemma half_fee_w c source a b supply d f (k : Z -> outcome Z) : fees_wf f -> is_u64 source ->
  (forall s, is_u64 s -> calc_withdraw_single c s a b supply d = k s) ->
  curve_withdraw_single c source a b supply d f = after_half_fee f source k.
Proof.
  intros Hf Hs Hk. unfold curve_withdraw_single, after_half_fee.
  destruct (Z.eqb_spec source 0); [reflexivity |]. rewrite cdiv_eq by discriminate. cbn [obind].
  unfold is_u64 in Hs. destruct (fees_exact f (Z.max 1 (source / 2)) Hf ltac:(lia)) as (E & _). rewrite E.
  destruct (fee_of _ _ _) as [fee | |] eqn:Ef; [| reflexivity |].
  - cbn [obind]. apply fee_of_nonneg in Ef; [| lia | destruct Hf; unfold is_u64 in *; lia | destruct Hf as (_ & ? & _); unfold is_u64 in *; lia].
    unfold csub. rewrite Z.leb_antisym. destruct (Z.ltb_spec source fee); cbn [negb obind]; [reflexivity |].
    apply Hk. unfold is_u64. lia.
  - unfold fee_of in Ef. destruct (_ || _); [discriminate |]. destruct (_ || _); discriminate.
Qed.

Lemma half_fee_both c source a b supply d f : fees_wf f -> is_u64 source ->
  curve_deposit_single c source a b supply d f =
    after_half_fee f source (fun s => calc_deposit_single c s a b supply d) /\
  curve_withdraw_single c source a b supply d f =
    after_half_fee f source (fun s => calc_withdraw_single c s a b supply d).
Proof. intros Hf Hs. split; [apply half_fee | apply half_fee_w]; trivial. Qed.

(** ** Constant price *)

Lemma cprice_singles p s a b supply d : is_u64 p -> is_u128 s -> is_u128 a -> is_u128 b -> is_u64 supply ->
  calc_deposit_single (ConstantPrice p) s a b supply d = price_single_quote p s a b supply d Floor /\
  calc_withdraw_single (ConstantPrice p) s a b supply d = price_single_quote p s a b supply d Ceiling.
Proof. intros. split; apply price_single_exact; assumption. Qed.

Lemma cprice_swap_quote p s ss sd d : is_u64 p -> is_u64 s ->
  swap_without_fees (ConstantPrice p) s ss sd d = price_swap_quote p s d.
Proof. intros. apply price_swap_exact; assumption. Qed.

Lemma cprice_both p n supply a b r : is_u64 p -> is_u64 n -> is_u64 supply -> is_u64 a -> is_u64 b ->
  pool_tokens_to_trading_tokens (ConstantPrice p) n supply a b r = price_both_quote p n supply a b r.
Proof. intros. apply price_both_exact; assumption. Qed.

Lemma cprice_value p a b : is_u64 p -> is_u64 a -> is_u64 b ->
  normalized_value (ConstantPrice p) a b = Val (pool_value p a b / 2 * 10 ^ 12).
Proof. intros. apply price_value_exact; assumption. Qed.

(** ** Constant product *)

Lemma cprod_swap_quote s ss sd d : is_u64 s -> is_u64 ss -> is_u64 sd ->
  swap_without_fees ConstantProduct s ss sd d = product_swap_quote s ss sd.
Proof. intros Hs Hss Hsd. unfold is_u64 in *. apply product_swap_exact; [assumption | lia | lia]. Qed.

Lemma both_quotes n supply a b r : is_u64 n -> is_u64 supply -> is_u64 a -> is_u64 b ->
  pool_tokens_to_trading_tokens ConstantProduct n supply a b r = ratio_quote n supply a b r /\
  (forall amp, pool_tokens_to_trading_tokens (Stable amp) n supply a b r = ratio_quote n supply a b r).
Proof. intros. split; intros; apply ratio_exact; assumption. Qed.

Lemma cprod_singles s a b supply d : is_u64 s -> 0 <= reserve_of d a b <= 2 * u64_max -> is_u64 supply ->
  (forall t, calc_deposit_single ConstantProduct s a b supply d = Val t ->
     0 < reserve_of d a b /\ product_deposit s (reserve_of d a b) supply Floor t) /\
  (forall t, calc_withdraw_single ConstantProduct s a b supply d = Val t ->
     0 < reserve_of d a b /\ s * 10 ^ 12 / reserve_of d a b <= 10 ^ 12 /\
     product_withdraw s (reserve_of d a b) supply Ceiling t) /\
  (0 < reserve_of d a b -> exists t, calc_deposit_single ConstantProduct s a b supply d = Val t) /\
  (0 < reserve_of d a b -> s * 10 ^ 12 / reserve_of d a b <= 10 ^ 12 ->
     exists t, calc_withdraw_single ConstantProduct s a b supply d = Val t).
Proof.
  intros Hs Hy Hn. cbn [calc_deposit_single calc_withdraw_single].
  pose proof (cprod_deposit_exact s a b supply d Floor Hs Hy Hn) as HD.
  pose proof (cprod_withdraw_exact s a b supply d Ceiling Hs Hy Hn) as HW.
  split; [| split; [| split]].
  - intros t Ht. destruct HD as [[_ H] | [Hp [t' [H Hq]]]]; rewrite Ht in H; [discriminate |].
    injection H as <-. split; assumption.
  - intros t Ht. destruct HW as [[_ H] | [Hp [Hle [t' [H Hq]]]]]; rewrite Ht in H; [discriminate |].
    injection H as <-. split; [assumption |]. split; assumption.
  - intros Hp. destruct HD as [[H0 _] | [_ [t' [H _]]]]; [lia | exists t'; exact H].
  - intros Hp Hle. destruct HW as [[[H0 | H0] _] | [_ [_ [t' [H _]]]]]; [lia | lia | exists t'; exact H].
Qed.

Lemma cprod_value a b : is_u64 a -> is_u64 b ->
  exists g, normalized_value ConstantProduct a b = Val g /\
    (a * b = 0 /\ g = 0 \/ 0 < a * b /\ root12 (a * b * 10 ^ 12) g).
Proof.
  intros Ha Hb. cbn [normalized_value]. unfold is_u64 in Hb.
  destruct (cprod_value_exact a b Ha ltac:(lia)) as [[E H] | [Hp [g [H Hg]]]].
  - exists 0. split; [exact H | left; auto].
  - exists g. split; [exact H | right; auto].
Qed.

(** ** Offset: everything as for a constant-product pool holding [o] more of token B *)

Lemma offset_swap_quote o s ss sd d : is_u64 o -> is_u64 s -> is_u64 ss -> is_u64 sd ->
  swap_without_fees (Offset o) s ss sd d =
  match d with
  | AtoB => product_swap_quote s ss (sd + o)
  | BtoA => product_swap_quote s (ss + o) sd
  end.
Proof. intros. apply offset_swap_exact; assumption. Qed.

Lemma offset_shift o s a b supply n d r : is_u64 o -> is_u64 b ->
  pool_tokens_to_trading_tokens (Offset o) n supply a b r =
    pool_tokens_to_trading_tokens ConstantProduct n supply a (b + o) r /\
  calc_deposit_single (Offset o) s a b supply d = calc_deposit_single ConstantProduct s a (b + o) supply d /\
  calc_withdraw_single (Offset o) s a b supply d = calc_withdraw_single ConstantProduct s a (b + o) supply d /\
  normalized_value (Offset o) a b = normalized_value ConstantProduct a (b + o).
Proof.
  intros Ho Hb. unfold is_u64 in *.
  cbn [pool_tokens_to_trading_tokens calc_deposit_single calc_withdraw_single normalized_value].
  unfold offset_pool_tokens_to_trading_tokens, offset_deposit_single, offset_withdraw_single, offset_normalized_value.
  rewrite add_in_eq by (consts; lia). split; [| split; [| split]]; reflexivity.
Qed.

Lemma offset_overflow o s a b supply n d r : u128_max < b + o ->
  swap_without_fees (Offset o) s a b AtoB = Non /\ swap_without_fees (Offset o) s b a BtoA = Non /\
  pool_tokens_to_trading_tokens (Offset o) n supply a b r = Non /\
  calc_deposit_single (Offset o) s a b supply d = Non /\
  calc_withdraw_single (Offset o) s a b supply d = Non /\ normalized_value (Offset o) a b = Non.
Proof.
  intros H. cbn [swap_without_fees pool_tokens_to_trading_tokens calc_deposit_single calc_withdraw_single normalized_value].
  unfold offset_swap, offset_pool_tokens_to_trading_tokens, offset_deposit_single, offset_withdraw_single, offset_normalized_value.
  unfold add_in. replace (b + o <=? u128_max) with false by (symmetry; apply Z.leb_gt; lia).
  cbn [obind]. repeat split; reflexivity.
Qed.

(** ** Stable *)

Lemma stable_swap_iff amp s ss sd d src dst : is_u64 amp -> is_u64 s -> is_u64 ss -> is_u64 sd ->
  swap_without_fees (Stable amp) s ss sd d = Val (src, dst) <-> stable_swap_quote amp s ss sd src dst.
Proof. intros. apply stable_swap_exact; assumption. Qed.

Lemma stable_singles amp s a b supply d :
  is_u64 amp -> is_u64 s -> is_u64 a -> is_u64 b -> is_u64 supply ->
  calc_deposit_single (Stable amp) s a b supply d = stable_single_quote amp s a b supply d true /\
  calc_withdraw_single (Stable amp) s a b supply d = stable_single_quote amp s a b supply d false.
Proof.
  intros Ham Hs Ha Hb Hn. split; [apply stable_deposit_exact; assumption |].
  unfold is_u64 in Ha, Hb. apply stable_withdraw_exact; try assumption; lia.
Qed.

Lemma stable_value amp a b : is_u64 amp -> is_u64 a -> is_u64 b ->
  normalized_value (Stable amp) a b =
  if u64_max <? 2 * amp then Non
  else if (amp =? 0) && (0 <? a + b) then Non
  else Val (invariant_d (2 * amp) a b * 10 ^ 12).
Proof. intros. apply stable_value_exact; assumption. Qed.

(** ** Which curves are valid, and with which supplies *)

Lemma validate_exact c : curve_wf c ->
  (curve_validate c = Ok tt <->
   match c with
   | ConstantProduct | Stable _ => True
   | ConstantPrice p => 0 < p
   | Offset o => 0 < o
   | LinearPrice l => slope_num l <> 0 /\ slope_den l <> 0 /\ price_den l <> 0 /\
                      slope_den l <= slope_num l * 10 ^ 18
   end) /\
  (curve_validate c <> Ok tt -> curve_validate c = Err (ESwap InvalidCurve)).
Proof.
  intros Hc. destruct c as [| p | amp | o | l]; cbn [curve_validate curve_wf] in *.
  - split; [split; auto | intros H; contradiction].
  - unfold is_u64 in Hc. unfold cprice_validate, guard. destruct (Z.eqb_spec p 0); split;
      try (split; [try discriminate; lia | try lia; reflexivity]); intros H; try reflexivity; contradiction.
  - split; [split; auto | intros H; contradiction].
  - unfold is_u64 in Hc. unfold offset_validate, guard. destruct (Z.eqb_spec o 0); split;
      try (split; [try discriminate; lia | try lia; reflexivity]); intros H; try reflexivity; contradiction.
  - apply linear_validate_iff. exact Hc.
Qed.

Lemma validate_supply_exact c a b :
  curve_validate_supply c a b =
  match c with
  | ConstantProduct | Stable _ => if (a =? 0) || (b =? 0) then Err (ESwap EmptySupply) else Ok tt
  | ConstantPrice _ | Offset _ => if a =? 0 then Err (ESwap EmptySupply) else Ok tt
  | LinearPrice _ => if b =? 0 then Err (ESwap EmptySupply)
                     else if a =? 0 then Ok tt else Err (ESwap InvalidSupply)
  end.
Proof.
  destruct c; cbn [curve_validate_supply]; unfold cprice_validate_supply, offset_validate_supply,
    linear_validate_supply, guard; destruct (a =? 0), (b =? 0); reflexivity.
Qed.

(** ** Abort *)

Lemma price_single_panics p s a b supply d r :
  is_u64 p -> is_u128 s -> is_u128 a -> is_u128 b -> is_u64 supply ->
  trading_tokens_to_pool_tokens p s a b supply d r = Panic <->
  0 < pool_value p a b /\ u128_max < round_div r (supply * value_of p s d) (pool_value p a b).
Proof.
  intros Hp Hs Ha Hb Hn. rewrite price_single_exact by assumption. unfold price_single_quote.
  assert (0 <= pool_value p a b) by (unfold pool_value, is_u64, is_u128 in *; nia).
  destruct (Z.eqb_spec (pool_value p a b) 0); [split; [discriminate | lia] |].
  destruct (Z.leb_spec (round_div r (supply * value_of p s d) (pool_value p a b)) u128_max);
    split; try discriminate; try lia. reflexivity.
Qed.

Lemma held_amount_no_panic p s a b supply d r :
  is_u64 p -> is_u128 s -> is_u128 a -> is_u128 b -> is_u64 supply -> s <= reserve_of d a b ->
  trading_tokens_to_pool_tokens p s a b supply d r <> Panic.
Proof.
  intros Hp Hs Ha Hb Hn Hle H. apply price_single_panics in H; try assumption. destruct H as [Ht H].
  assert (Hv : 0 <= value_of p s d <= pool_value p a b).
  { unfold is_u64, is_u128 in *. unfold value_of, pool_value. destruct d; cbn [reserve_of] in Hle; nia. }
  unfold is_u64 in Hn.
  assert (Hq : round_div r (supply * value_of p s d) (pool_value p a b) <= supply); [| consts; lia].
  set (v := value_of p s d) in *. set (t := pool_value p a b) in *. clearbody v t.
  assert (Hm : supply * v <= supply * t) by (apply Z.mul_le_mono_nonneg_l; lia).
  destruct r; cbn [round_div].
  - apply Z.div_le_upper_bound; lia.
  - unfold up_div. destruct (Z.ltb_spec (supply * v) t).
    + destruct (Z.leb_spec t (2 * (supply * v))); nia.
    + apply Z.lt_succ_r. apply Z.div_lt_upper_bound; lia.
Qed.

Lemma swap_no_panic c s ss sd d :
  match c with LinearPrice _ => True | _ => swap_without_fees c s ss sd d <> Panic end.
Proof.
  destruct c; cbn [swap_without_fees]; trivial.
  - apply cprod_swap_no_panic.
  - apply cprice_swap_no_panic.
  - apply stable_swap_no_panic.
  - apply offset_swap_no_panic.
Qed.

Lemma abort_witness : exists p s a b supply,
  is_u64 p /\ is_u64 s /\ is_u64 a /\ is_u64 b /\ is_u64 supply /\ 0 < p /\ 0 < a /\
  curve_deposit_single (ConstantPrice p) s a b supply BtoA (mk_fees 0 0 0 0 0 0 0 0) = Panic.
Proof.
  exists u64_max, u64_max, 1, 0, (10 ^ 9). unfold is_u64.
  repeat match goal with |- _ /\ _ => split end; vm_compute; try reflexivity; intros; discriminate.
Qed.
