(** Facts about fees and the curves other than the linear one. *)
From Verif Require Import Tactics SplMath DfsPrecise SqrtFacts DfsFacts Fees LinearCurve ConstantPrice
  ConstantProduct OffsetCurve StableCurve SwapCurve Spec.

(** ** spl_math::checked_ceil_div *)
Lemma ceil_div_spec m a rhs q d : 0 <= a -> 0 <= rhs -> checked_ceil_div m a rhs = Val (q, d) ->
  0 < rhs /\
  ((a < rhs /\ d = 0 /\ ((2 * a < rhs /\ q = 0) \/ (rhs <= 2 * a /\ q = 1))) \/
   (rhs <= a /\ 0 < q /\ (q - 1) * rhs < a <= q * rhs /\ (d - 1) * q < a <= d * q /\ d <= rhs)).
Proof.
  intros Ha Hr H. unfold checked_ceil_div in H.
  apply obind_val in H. destruct H as (q0 & Hq & H). apply cdiv_val in Hq. destruct Hq as [-> Hnz].
  split; [lia |]. assert (Hr' : 0 < rhs) by lia.
  pose proof (div_bounds a rhs Hr') as D.
  destruct (Z.eqb_spec (a / rhs) 0) as [E | Hne].
  - left. rewrite E in D. split; [lia |].
    apply obind_val in H. destruct H as (t & Ht & H). inv.
    destruct (Z.leb_spec rhs (a * 2)); inv; lia.
  - right. assert (Hq0 : 0 < a / rhs).
    { assert (0 <= a / rhs) by (apply Z.div_pos; lia). lia. }
    assert (Hra : rhs <= a) by nia. split; [exact Hra |].
    apply obind_val in H. destruct H as (r & Hrem & H). apply crem_val in Hrem. destruct Hrem as [-> _].
    pose proof (Z.div_mod a rhs ltac:(lia)) as DM. pose proof (Z.mod_pos_bound a rhs Hr') as MB.
    destruct (Z.ltb_spec 0 (a mod rhs)) as [Hpos | Hz].
    + inv. set (q1 := a / rhs) in *.
      pose proof (div_bounds a (q1 + 1) ltac:(lia)) as D1.
      pose proof (Z.div_mod a (q1 + 1) ltac:(lia)) as DM1.
      pose proof (Z.mod_pos_bound a (q1 + 1) ltac:(lia)) as MB1.
      set (dd := a / (q1 + 1)) in *.
      assert (dd * (q1 + 1) < rhs * (q1 + 1)) by nia.
      match goal with H : (if ?c then _ else _) = Val _ |- _ =>
        destruct c eqn:C end; inv.
      * apply Z.ltb_lt in C. repeat split; try lia; nia.
      * apply Z.ltb_ge in C. repeat split; try lia; nia.
    + injection H as <- <-. set (q1 := a / rhs) in *. repeat split; try lia; nia.
Qed.

Lemma ceil_div_no_panic m a rhs : checked_ceil_div m a rhs <> Panic.
Proof.
  unfold checked_ceil_div, cdiv, crem, mul_in, add_in.
  repeat match goal with
         | |- context [if ?c then _ else _] => destruct c; cbn [obind]; try discriminate
         end.
Qed.

(** ** Fees *)
Lemma calculate_fee_spec amount num den :
  is_u64 amount -> is_u64 num -> is_u64 den -> proper_fraction num den ->
  exists fee, calculate_fee amount num den = Val fee /\ 0 <= fee <= amount /\
    (fee = 0 <-> num = 0 \/ amount = 0) /\
    (fee * den < amount * num + den \/ den = 0) /\ (amount * num < (fee + 1) * den \/ den = 0).
Proof.
  intros Ha Hn Hd Hp. unfold is_u64, u64_max in *. unfold calculate_fee.
  destruct (Z.eqb_spec num 0) as [-> | Hn0]; cbn [orb].
  { exists 0. split; [reflexivity |]. nia. }
  destruct (Z.eqb_spec amount 0) as [-> | Ha0]; cbn [orb].
  { exists 0. split; [reflexivity |]. nia. }
  assert (Hlt : num < den) by (destruct Hp; lia).
  assert (amount * num <= u128_max) by (unfold u128_max; nia).
  rewrite mul_in_eq by assumption. cbn [obind]. rewrite cdiv_eq by lia. cbn [obind].
  pose proof (div_bounds (amount * num) den ltac:(lia)) as D.
  assert (0 <= amount * num / den) by (apply Z.div_pos; nia).
  destruct (Z.eqb_spec (amount * num / den) 0) as [E | E].
  - exists 1. split; [reflexivity |]. rewrite E in D. nia.
  - exists (amount * num / den). split; [reflexivity |]. set (q := amount * num / den) in *. nia.
Qed.

Lemma calculate_fee_nonneg amount num den fee :
  0 <= amount -> 0 <= num -> 0 <= den -> calculate_fee amount num den = Val fee -> 0 <= fee.
Proof.
  intros Ha Hn Hd H. unfold calculate_fee in H. destruct (_ || _); inv; [lia |].
  match goal with H : (if ?c then _ else _) = Val _ |- _ => destruct c end; inv; [lia |].
  apply Z.div_pos; nia.
Qed.

Lemma calculate_fee_no_panic amount num den : calculate_fee amount num den <> Panic.
Proof.
  unfold calculate_fee, mul_in, cdiv.
  repeat match goal with
         | |- context [if ?c then _ else _] => destruct c; cbn [obind]; try discriminate
         end.
Qed.

Lemma validate_fraction_ok num den : 0 <= num -> 0 <= den ->
  (validate_fraction num den = Ok tt <-> proper_fraction num den).
Proof.
  intros Hn Hd. unfold validate_fraction, proper_fraction.
  destruct (Z.eqb_spec den 0), (Z.eqb_spec num 0); cbn [andb];
    try (destruct (Z.leb_spec den num)); split; intros; try discriminate; try reflexivity; lia.
Qed.

Lemma fees_validate_ok f : fees_wf f ->
  (fees_validate f = Ok tt <->
   proper_fraction (trade_fee_num f) (trade_fee_den f) /\
   proper_fraction (owner_trade_fee_num f) (owner_trade_fee_den f) /\
   proper_fraction (owner_withdraw_fee_num f) (owner_withdraw_fee_den f) /\
   proper_fraction (host_fee_num f) (host_fee_den f)).
Proof.
  unfold fees_wf, is_u64. intros (H1 & H2 & H3 & H4 & H5 & H6 & H7 & H8).
  rewrite <- !validate_fraction_ok by lia. unfold fees_validate.
  repeat match goal with
         | |- context [validate_fraction ?a ?b] =>
             let E := fresh "E" in destruct (validate_fraction a b) as [[] |] eqn:E; cbn [rbind]
         end; intuition congruence.
Qed.

(** Every rejection is [InvalidFee]. *)
Lemma fees_validate_err f e : fees_validate f = Err e -> e = ESwap InvalidFee.
Proof.
  unfold fees_validate, validate_fraction. intros H.
  repeat match type of H with
         | context [if ?c then _ else _] => destruct c; cbn [rbind] in H; try congruence
         end.
Qed.

(** ** Constant price *)
Lemma cprice_swap_a_to_b p source src dst : 0 < p -> 0 <= source ->
  cprice_swap p source AtoB = Val (src, dst) <->
  dst = source / p /\ src = p * dst /\ 0 < dst.
Proof.
  intros Hp Hs. unfold cprice_swap.
  rewrite cdiv_eq, crem_eq by lia. cbn [obind].
  pose proof (Z.div_mod source p ltac:(lia)) as DM. pose proof (Z.mod_pos_bound source p Hp) as MB.
  assert (Hq : 0 <= source / p) by (apply Z.div_pos; lia).
  assert (E : (if 0 <? source mod p then csub source (source mod p) else Val source)
              = Val (p * (source / p))).
  { destruct (Z.ltb_spec 0 (source mod p)).
    - rewrite csub_eq by nia. f_equal. lia.
    - f_equal. lia. }
  rewrite E. cbn [obind]. unfold map_zero_to_none.
  set (q := source / p) in *.
  destruct (Z.eqb_spec (p * q) 0), (Z.eqb_spec q 0); cbn [obind]; split; intros H;
    try discriminate; try (injection H as <- <-); try (destruct H as (-> & -> & ?)); nia || auto.
Qed.

Lemma cprice_swap_b_to_a p source src dst : 0 <= p -> 0 <= source ->
  cprice_swap p source BtoA = Val (src, dst) <->
  src = source /\ dst = p * source /\ 0 < dst <= u128_max.
Proof.
  intros Hp Hs. unfold cprice_swap. unfold mul_in.
  destruct (Z.leb_spec (source * p) u128_max); cbn [obind]; unfold map_zero_to_none.
  - destruct (Z.eqb_spec source 0), (Z.eqb_spec (source * p) 0); cbn [obind]; split; intros H';
      try discriminate; try (injection H' as <- <-); try (destruct H' as (-> & -> & ?)); try nia.
    f_equal. f_equal; nia.
  - split; intros H'; [discriminate | lia].
Qed.

Lemma cprice_value_half p a b v : 0 <= p -> 0 <= a -> 0 <= b ->
  cprice_normalized_value p a b = Val v -> v = pool_value p a b / 2 * SPL_ONE.
Proof.
  intros Hp Ha Hb H. unfold cprice_normalized_value, pool_value in *. inv.
  match goal with H : (if ?c then _ else _) = Val _ |- _ => destruct c eqn:C end; inv.
  - apply Z.ltb_lt in C. unfold sat_sub, u128_max, u64_max in *. lia.
  - unfold spl_new in *. inv. do 2 f_equal. lia.
Qed.

Lemma spl_whole_to_imprecise v n : 0 <= v -> spl_to_imprecise (v * SPL_ONE) = Val n -> n = v.
Proof.
  intros Hv H. unfold spl_to_imprecise in H. inv.
  symmetry. apply (Z.div_unique _ _ _ SPL_HALF); unfold SPL_HALF, SPL_ONE; lia.
Qed.

(** Withdrawing both tokens pays at most the proportional share. *)
Lemma cprice_withdraw_both p n supply a b x y :
  0 < p -> 0 <= n -> 0 < supply -> 0 <= a -> 0 <= b ->
  cprice_pool_tokens_to_trading_tokens p n supply a b Floor = Val (x, y) ->
  0 <= x /\ 0 <= y /\ pool_value p x y * supply <= n * pool_value p a b.
Proof.
  intros Hp Hn Hs Ha Hb H. unfold cprice_pool_tokens_to_trading_tokens in H. inv.
  match goal with H : cprice_normalized_value _ _ _ = Val _ |- _ =>
    apply cprice_value_half in H; [| lia | lia | lia] end. subst.
  match goal with H : spl_to_imprecise _ = Val _ |- _ =>
    apply spl_whole_to_imprecise in H; [| apply Z.div_pos; unfold pool_value; nia] end. subst.
  assert (HV : 0 <= pool_value p a b) by (unfold pool_value; nia).
  set (V := pool_value p a b) in *.
  pose proof (div_bounds V 2 ltac:(lia)) as DV. assert (0 <= V / 2) by (apply Z.div_pos; lia).
  set (t := V / 2) in *. assert (0 <= n * t) by nia.
  pose proof (div_bounds (n * t) supply Hs) as D1.
  assert (0 <= n * t / supply) by (apply Z.div_pos; lia).
  pose proof (div_bounds (n * t) p Hp) as D2.
  assert (0 <= n * t / p) by (apply Z.div_pos; lia).
  pose proof (div_bounds (n * t / p) supply Hs) as D3.
  assert (0 <= n * t / p / supply) by (apply Z.div_pos; lia).
  split; [lia |]. split; [lia |]. unfold pool_value.
  set (y := n * t / p / supply) in *. set (z := n * t / p) in *. set (x := n * t / supply) in *.
  assert (p * y * supply <= n * t) by nia. nia.
Qed.

(** Depositing both tokens. *)
Lemma cprice_deposit_both p n supply a b x y :
  0 < p -> 0 <= n -> 0 < supply -> 0 <= a -> 0 <= b ->
  cprice_pool_tokens_to_trading_tokens p n supply a b Ceiling = Val (x, y) -> 0 < x -> 0 < y ->
  n * (2 * (pool_value p a b / 2)) <= pool_value p x y * supply.
Proof.
  intros Hp Hn Hs Ha Hb H Hx Hy. unfold cprice_pool_tokens_to_trading_tokens in H. inv.
  match goal with H : cprice_normalized_value _ _ _ = Val _ |- _ =>
    apply cprice_value_half in H; [| lia | lia | lia] end. subst.
  match goal with H : spl_to_imprecise _ = Val _ |- _ =>
    apply spl_whole_to_imprecise in H; [| apply Z.div_pos; unfold pool_value; nia] end. subst.
  assert (HV : 0 <= pool_value p a b) by (unfold pool_value; nia).
  set (V := pool_value p a b) in *.
  pose proof (div_bounds V 2 ltac:(lia)) as DV. assert (0 <= V / 2) by (apply Z.div_pos; lia).
  set (t := V / 2) in *. assert (0 <= n * t) by nia.
  repeat match goal with
    H : checked_ceil_div _ (n * t) _ = Val _ |- _ => apply ceil_div_spec in H; [| lia | lia] end.
  match goal with
    H : checked_ceil_div _ ?z _ = Val _ |- _ => apply ceil_div_spec in H; [| nia | lia] end.
  unfold pool_value. nia.
Qed.

(** ** Single-sided operations on a constant-price pool *)
Lemma cprice_given_value p source d g :
  (match d with AtoB => Val source | BtoA => mul_in u256_max source p end) = Val g ->
  g = value_of p source d.
Proof. intros H. destruct d; inv; unfold value_of; lia. Qed.

Lemma cprice_deposit_single_bound p source a b supply d t :
  0 <= p -> 0 <= source -> 0 <= a -> 0 <= b -> 0 <= supply ->
  cprice_deposit_single p source a b supply d = Val t ->
  0 <= t /\ 0 < pool_value p a b /\
  t * pool_value p a b <= supply * value_of p source d < (t + 1) * pool_value p a b.
Proof.
  intros Hp Hs Ha Hb Hsup H. unfold cprice_deposit_single, trading_tokens_to_pool_tokens in H.
  apply obind_val in H. destruct H as (g & Hg & H). apply cprice_given_value in Hg. subst g. inv.
  assert (E : b * p + a = pool_value p a b) by (unfold pool_value; lia). rewrite E in *.
  assert (0 <= value_of p source d) by (unfold value_of; destruct d; nia).
  assert (0 < pool_value p a b) by (unfold pool_value in *; nia).
  pose proof (div_bounds (supply * value_of p source d) (pool_value p a b) ltac:(lia)).
  assert (0 <= supply * value_of p source d / pool_value p a b) by (apply Z.div_pos; nia).
  lia.
Qed.

Lemma cprice_withdraw_single_bound p source a b supply d t :
  0 <= p -> 0 <= source -> 0 <= a -> 0 <= b -> 0 <= supply ->
  cprice_withdraw_single p source a b supply d = Val t ->
  0 < pool_value p a b /\
  ((t = 0 /\ 2 * (supply * value_of p source d) < pool_value p a b) \/
   (0 < t /\ (t - 1) * pool_value p a b < supply * value_of p source d <= t * pool_value p a b)).
Proof.
  intros Hp Hs Ha Hb Hsup H. unfold cprice_withdraw_single, trading_tokens_to_pool_tokens in H.
  apply obind_val in H. destruct H as (g & Hg & H). apply cprice_given_value in Hg. subst g. inv.
  assert (E : b * p + a = pool_value p a b) by (unfold pool_value; lia). rewrite E in *.
  assert (0 <= value_of p source d) by (unfold value_of; destruct d; nia).
  match goal with H : checked_ceil_div _ _ _ = Val _ |- _ =>
    apply ceil_div_spec in H; [| nia | unfold pool_value; nia] end.
  nia.
Qed.

(** The fee-aware wrappers of base.rs: the curve is asked about an amount that
    is not larger than the stated one. *)
Lemma curve_deposit_single_inner c source a b supply d f t :
  fees_wf f -> 0 < source -> curve_deposit_single c source a b supply d f = Val t ->
  exists fee, trading_fee f (Z.max 1 (source / 2)) = Val fee /\ 0 <= fee <= source /\
    calc_deposit_single c (source - fee) a b supply d = Val t.
Proof.
  intros Hf Hs H. unfold curve_deposit_single in H. destruct (Z.eqb_spec source 0); [lia |]. inv.
  match goal with H : trading_fee _ _ = Val ?x |- _ => exists x; split; [exact H |];
    unfold trading_fee in H; apply calculate_fee_nonneg in H end; [auto with zarith | ..];
  unfold fees_wf, is_u64 in Hf; lia.
Qed.

Lemma curve_withdraw_single_inner c source a b supply d f t :
  fees_wf f -> 0 < source -> curve_withdraw_single c source a b supply d f = Val t ->
  exists fee, trading_fee f (Z.max 1 (source / 2)) = Val fee /\ 0 <= fee <= source /\
    calc_withdraw_single c (source - fee) a b supply d = Val t.
Proof.
  intros Hf Hs H. unfold curve_withdraw_single in H. destruct (Z.eqb_spec source 0); [lia |]. inv.
  match goal with H : trading_fee _ _ = Val ?x |- _ => exists x; split; [exact H |];
    unfold trading_fee in H; apply calculate_fee_nonneg in H end; [auto with zarith | ..];
  unfold fees_wf, is_u64 in Hf; lia.
Qed.

Lemma no_trade_fee f amount fee : trade_fee_num f = 0 -> trading_fee f amount = Val fee -> fee = 0.
Proof. intros H E. unfold trading_fee, calculate_fee in E. rewrite H in E. cbn in E. congruence. Qed.

(** C25 *)
Lemma cprice_single_deposit_fair p source a b supply d f t :
  is_u64 p -> fees_wf f -> 0 <= source -> 0 <= a -> 0 <= b -> 0 <= supply ->
  curve_deposit_single (ConstantPrice p) source a b supply d f = Val t ->
  0 <= t /\ t * pool_value p a b <= supply * value_of p source d.
Proof.
  intros Hp Hf Hs Ha Hb Hsup H. unfold is_u64 in Hp.
  destruct (Z.eq_dec source 0) as [-> | Hnz].
  { unfold curve_deposit_single in H. cbn in H. inv. unfold value_of. destruct d; lia. }
  apply curve_deposit_single_inner in H; [| assumption | lia].
  destruct H as (fee & _ & Hfee & H). cbn [calc_deposit_single] in H.
  apply cprice_deposit_single_bound in H; try lia. destruct H as (Ht & HV & H).
  split; [exact Ht |].
  assert (value_of p (source - fee) d <= value_of p source d) by (unfold value_of; destruct d; nia).
  nia.
Qed.

(** C26 without a trade fee *)
Lemma cprice_single_withdraw_fair p source a b supply d f t :
  is_u64 p -> fees_wf f -> trade_fee_num f = 0 -> 0 <= source -> 0 <= a -> 0 <= b -> 0 <= supply ->
  curve_withdraw_single (ConstantPrice p) source a b supply d f = Val t -> 0 < t ->
  supply * value_of p source d <= t * pool_value p a b.
Proof.
  intros Hp Hf Hz Hs Ha Hb Hsup H Ht. unfold is_u64 in Hp.
  destruct (Z.eq_dec source 0) as [-> | Hnz].
  { unfold curve_withdraw_single in H. cbn in H. inv. lia. }
  apply curve_withdraw_single_inner in H; [| assumption | lia].
  destruct H as (fee & Hfee & Hb2 & H). apply no_trade_fee in Hfee; [| exact Hz]. subst fee.
  rewrite Z.sub_0_r in H. cbn [calc_withdraw_single] in H.
  apply cprice_withdraw_single_bound in H; try lia.
Qed.

(** C26 in general: the burned tokens pay for the amount less the trade fee. *)
Lemma cprice_single_withdraw_partial p source a b supply d f t :
  is_u64 p -> fees_wf f -> 0 < source -> 0 <= a -> 0 <= b -> 0 <= supply ->
  curve_withdraw_single (ConstantPrice p) source a b supply d f = Val t -> 0 < t ->
  exists fee, trading_fee f (Z.max 1 (source / 2)) = Val fee /\ 0 <= fee <= source /\
  supply * value_of p (source - fee) d <= t * pool_value p a b.
Proof.
  intros Hp Hf Hs Ha Hb Hsup H Ht. unfold is_u64 in Hp.
  apply curve_withdraw_single_inner in H; [| assumption | lia].
  destruct H as (fee & Hfee & Hb2 & H). exists fee. split; [exact Hfee |]. split; [exact Hb2 |].
  cbn [calc_withdraw_single] in H. apply cprice_withdraw_single_bound in H; try lia.
Qed.

(** ** Swaps on a constant-price pool, fees included *)
Lemma cprice_curve_swap p source ss sd d f r :
  is_u64 p -> 0 < p -> 0 <= source -> curve_swap (ConstantPrice p) source ss sd d f = Val r ->
  exists total, total = trade_fee r + owner_fee r /\
    trading_fee f source = Val (trade_fee r) /\ owner_trading_fee f source = Val (owner_fee r) /\
    total <= source /\
    value_of p (source_amount_swapped r - total) d =
      value_of p (destination_amount_swapped r) (opposite d) /\
    source - p < source_amount_swapped r <= source /\
    pool_value p (side_a d (new_swap_source_amount r) (new_swap_destination_amount r))
                 (side_b d (new_swap_source_amount r) (new_swap_destination_amount r)) =
    pool_value p (side_a d ss sd) (side_b d ss sd) + value_of p total d.
Proof.
  intros Hp64 Hp Hs H. unfold curve_swap in H. cbn [swap_without_fees] in H.
  destruct d.
  - inv. match goal with H : cprice_swap _ _ AtoB = Val _ |- _ =>
      apply cprice_swap_a_to_b in H; [| lia | lia]; destruct H as (-> & -> & Hd) end.
    cbn [trade_fee owner_fee source_amount_swapped destination_amount_swapped
         new_swap_source_amount new_swap_destination_amount].
    eexists. split; [reflexivity |]. split; [assumption |]. split; [assumption |].
    split; [lia |]. unfold side_a, side_b, pool_value, value_of, opposite.
    match goal with |- context [?n / p] => pose proof (div_bounds n p Hp); set (q := n / p) in * end.
    repeat split; nia.
  - inv. match goal with H : cprice_swap _ _ BtoA = Val _ |- _ =>
      apply cprice_swap_b_to_a in H; [| lia | lia]; destruct H as (-> & -> & Hd) end.
    cbn [trade_fee owner_fee source_amount_swapped destination_amount_swapped
         new_swap_source_amount new_swap_destination_amount].
    eexists. split; [reflexivity |]. split; [assumption |]. split; [assumption |].
    split; [lia |]. unfold side_a, side_b, pool_value, value_of, opposite.
    repeat split; nia.
Qed.

(** C27: the pool tokens minted for the owner fee. *)
Lemma cprice_owner_fee_dilution p source ss sd d f r supply t :
  is_u64 p -> 0 < p -> fees_wf f -> 0 <= source -> 0 <= ss -> 0 <= sd -> 0 <= supply ->
  curve_swap (ConstantPrice p) source ss sd d f = Val r ->
  curve_withdraw_single (ConstantPrice p) (owner_fee r)
    (side_a d (new_swap_source_amount r) (new_swap_destination_amount r))
    (side_b d (new_swap_source_amount r) (new_swap_destination_amount r)) supply d f = Val t ->
  let v0 := pool_value p (side_a d ss sd) (side_b d ss sd) in
  let v1 := pool_value p (side_a d (new_swap_source_amount r) (new_swap_destination_amount r))
                         (side_b d (new_swap_source_amount r) (new_swap_destination_amount r)) in
  v0 * (supply + Z.max 0 (t - 1)) <= v1 * supply.
Proof.
  intros Hp64 Hp Hf Hs Hss Hsd Hsup H Ht v0 v1.
  assert (Hnn : 0 <= new_swap_source_amount r /\ 0 <= new_swap_destination_amount r /\
                0 <= trade_fee r /\ 0 <= owner_fee r).
  { unfold curve_swap in H. inv.
    cbn [trade_fee owner_fee new_swap_source_amount new_swap_destination_amount].
    unfold trading_fee, owner_trading_fee in *. unfold fees_wf, is_u64 in Hf.
    repeat match goal with H : calculate_fee _ _ _ = Val _ |- _ =>
      apply calculate_fee_nonneg in H; [| lia | lia | lia] end.
    cbn [swap_without_fees] in *.
    match goal with H : cprice_swap _ _ ?d = Val _ |- _ => destruct d;
      [apply cprice_swap_a_to_b in H; [| lia | lia] | apply cprice_swap_b_to_a in H; [| lia | lia]] end;
    repeat split; nia. }
  destruct Hnn as (N1 & N2 & N3 & N4).
  apply cprice_curve_swap in H; try assumption.
  destruct H as (total & Htot & _ & _ & _ & _ & _ & HV). fold v0 in HV. fold v1 in HV.
  assert (Hv0 : 0 <= v0) by (unfold v0, pool_value, side_a, side_b; destruct d; nia).
  assert (Hvt : 0 <= value_of p total d) by (unfold value_of; destruct d; nia).
  destruct (Z.eq_dec (owner_fee r) 0) as [Ez | Hnz].
  { rewrite Ez in Ht. unfold curve_withdraw_single in Ht. cbn in Ht. inv. rewrite Z.max_l by lia. nia. }
  apply curve_withdraw_single_inner in Ht; [| assumption | lia].
  destruct Ht as (fee & _ & Hfee & Ht). cbn [calc_withdraw_single] in Ht.
  apply cprice_withdraw_single_bound in Ht;
    try (unfold side_a, side_b; destruct d; lia); try lia.
  fold v1 in Ht. destruct Ht as (Hv1 & [[-> _] | (Hpos & Hb & _)]).
  { rewrite Z.max_l by lia. nia. }
  rewrite Z.max_r by lia.
  assert (Hle : value_of p (owner_fee r - fee) d <= value_of p total d)
    by (unfold value_of; destruct d; nia).
  assert (v0 <= v1) by lia. assert (0 <= t - 1) by lia.
  assert (v0 * (t - 1) <= v1 * (t - 1)) by (apply Z.mul_le_mono_nonneg_r; lia).
  assert (supply * value_of p (owner_fee r - fee) d <= supply * value_of p total d)
    by (apply Z.mul_le_mono_nonneg_l; lia).
  rewrite HV in *. nia.
Qed.

(** ** Constant product *)
Lemma cprod_swap_spec source ss sd src dst :
  0 <= source -> 0 <= ss -> 0 <= sd -> cprod_swap source ss sd = Val (src, dst) ->
  0 <= src <= source /\ 0 < dst <= sd /\
  (0 < ss ->
     ss * sd <= (ss + src) * (sd - dst) /\
     (forall s, s < src -> (ss + s) * (sd - dst) < ss * sd) /\
     (forall x, dst < x <= sd -> (ss + source) * (sd - x) < ss * sd)).
Proof.
  intros Hs Hss Hsd H. unfold cprod_swap in H. inv.
  match goal with H : checked_ceil_div _ _ _ = Val _ |- _ =>
    apply ceil_div_spec in H; [| nia | lia]; destruct H as (Hpos & [(Hlt & -> & Hq) | (Hge & Hq & Hb1 & Hb2 & Hd)]) end.
  - assert (ss = 0) by lia. subst ss. repeat split; lia.
  - split; [lia |]. split; [nia |]. intros Hss0. split; [nia |]. split.
    + intros s Hsrc. nia.
    + intros x Hx. nia.
Qed.

Lemma offset_swap_spec o source ss sd d src dst :
  0 <= o -> 0 <= source -> 0 <= ss -> 0 <= sd -> offset_swap o source ss sd d = Val (src, dst) ->
  let vs := match d with AtoB => ss | BtoA => ss + o end in
  let vd := match d with AtoB => sd + o | BtoA => sd end in
  0 <= src <= source /\ 0 < dst <= vd /\
  (0 < vs ->
     vs * vd <= (vs + src) * (vd - dst) /\
     (forall s, s < src -> (vs + s) * (vd - dst) < vs * vd) /\
     (forall x, dst < x <= vd -> (vs + source) * (vd - x) < vs * vd)).
Proof.
  intros Ho Hs Hss Hsd H. unfold offset_swap in H. destruct d; inv; cbv zeta;
  match goal with H : cprod_swap _ _ _ = Val _ |- _ => apply cprod_swap_spec in H; lia || exact H end.
Qed.

(** ** Proportional conversion of pool tokens *)
Lemma ratio_floor n supply a b x y : 0 <= n -> 0 <= supply -> 0 <= a -> 0 <= b ->
  ratio_pool_tokens_to_trading_tokens n supply a b Floor = Val (x, y) ->
  0 < supply /\
  x * supply <= n * a < (x + 1) * supply /\ y * supply <= n * b < (y + 1) * supply.
Proof.
  intros Hn Hs Ha Hb H. unfold ratio_pool_tokens_to_trading_tokens in H. inv.
  assert (0 < supply) by lia. split; [assumption |].
  split; apply div_bounds; assumption.
Qed.

Lemma bump_spec n supply a r : 0 <= n * a <= u128_max -> 0 < supply ->
  bump_if_inexact (n * a / supply) (n * a mod supply) = r ->
  exists x, r = Val x /\
    ((n * a < supply /\ x = 0) \/ (supply <= n * a /\ (x - 1) * supply < n * a <= x * supply)).
Proof.
  intros Hna Hs <-. unfold bump_if_inexact.
  pose proof (Z.div_mod (n * a) supply ltac:(lia)) as DM.
  pose proof (Z.mod_pos_bound (n * a) supply Hs) as MB.
  assert (Hq : 0 <= n * a / supply) by (apply Z.div_pos; lia).
  set (q := n * a / supply) in *. set (m := n * a mod supply) in *.
  destruct (Z.ltb_spec 0 m); cbn [andb].
  - destruct (Z.ltb_spec 0 q).
    + unfold add_or_panic. destruct (Z.leb_spec (q + 1) u128_max); [| nia].
      eexists. split; [reflexivity |]. right. nia.
    + eexists. split; [reflexivity |]. left. nia.
  - eexists. split; [reflexivity |]. nia.
Qed.

Lemma ratio_ceiling n supply a b x y : 0 <= n -> 0 <= supply -> 0 <= a -> 0 <= b ->
  ratio_pool_tokens_to_trading_tokens n supply a b Ceiling = Val (x, y) ->
  0 < supply /\
  ((n * a < supply /\ x = 0) \/ (supply <= n * a /\ (x - 1) * supply < n * a <= x * supply)) /\
  ((n * b < supply /\ y = 0) \/ (supply <= n * b /\ (y - 1) * supply < n * b <= y * supply)).
Proof.
  intros Hn Hs Ha Hb H. unfold ratio_pool_tokens_to_trading_tokens in H. inv.
  assert (Hs' : 0 < supply) by lia. split; [assumption |].
  repeat match goal with H : bump_if_inexact _ _ = Val _ |- _ =>
    apply bump_spec in H; [destruct H as (? & E & H); injection E as <- | nia | assumption] end.
  split; assumption.
Qed.

Lemma ratio_no_panic n supply a b r : 0 <= n -> 0 <= supply -> 0 <= a -> 0 <= b ->
  ratio_pool_tokens_to_trading_tokens n supply a b r <> Panic.
Proof.
  intros Hn Hs Ha Hb. unfold ratio_pool_tokens_to_trading_tokens, mul_in.
  destruct (Z.leb_spec (n * a) u128_max) as [Ha2 |]; cbn [obind]; [| discriminate].
  unfold cdiv, crem. destruct (Z.eqb_spec supply 0); cbn [obind]; [discriminate |].
  destruct (Z.leb_spec (n * b) u128_max) as [Hb2 |]; cbn [obind]; [| discriminate].
  destruct r; cbn [obind]; [discriminate |].
  destruct (bump_spec n supply a _ ltac:(nia) ltac:(lia) eq_refl) as (x & -> & _). cbn [obind].
  destruct (bump_spec n supply b _ ltac:(nia) ltac:(lia) eq_refl) as (y & -> & _). cbn [obind].
  discriminate.
Qed.

(** ** No panics *)
Lemma obind_no_panic A B (m : outcome A) (k : A -> outcome B) :
  m <> Panic -> (forall a, m = Val a -> k a <> Panic) -> obind m k <> Panic.
Proof. destruct m; cbn; intros H1 H2; [apply H2; reflexivity | discriminate | contradiction]. Qed.

Ltac no_panic :=
  repeat first
    [ discriminate
    | assumption
    | match goal with |- obind _ _ <> Panic => apply obind_no_panic; [| intros ? ?] end
    | apply add_in_no_panic | apply mul_in_no_panic | apply csub_no_panic | apply cdiv_no_panic
    | apply crem_no_panic | apply map_zero_no_panic | apply ceil_div_no_panic
    | apply calculate_fee_no_panic | apply dfs_mul_no_panic | apply dfs_div_no_panic
    | apply dfs_to_imprecise_no_panic
    | match goal with
      | |- (if ?c then _ else _) <> Panic => destruct c
      | |- (let (_, _) := ?p in _) <> Panic => destruct p
      | |- match ?d with AtoB => _ | BtoA => _ end <> Panic => destruct d
      | |- match ?d with Floor => _ | Ceiling => _ end <> Panic => destruct d
      end ].

Lemma repeat_mul_no_panic n acc a : repeat_mul n acc a <> Panic.
Proof. revert acc. induction n; intros acc; cbn [repeat_mul]; no_panic. apply IHn. Qed.
Lemma repeat_add_no_panic n acc a : repeat_add n acc a <> Panic.
Proof. revert acc. induction n; intros acc; cbn [repeat_add]; no_panic. apply IHn. Qed.
Lemma compute_d_loop_no_panic n l a b s d : compute_d_loop n l a b s d <> Panic.
Proof.
  revert d. induction n; intros d; cbn [compute_d_loop]; unfold calculate_step, checked_u8_mul; no_panic;
    try apply repeat_add_no_panic. apply IHn.
Qed.
Lemma compute_d_no_panic l a b : compute_d l a b <> Panic.
Proof.
  unfold compute_d, checked_u8_mul, try_u128. no_panic;
    try apply repeat_add_no_panic; apply compute_d_loop_no_panic.
Qed.
Lemma new_dest_loop_no_panic n b c d y : new_dest_loop n b c d y <> Panic.
Proof.
  revert y. induction n; intros y; cbn [new_dest_loop]; unfold checked_u8_power, checked_u8_mul; no_panic;
    try apply repeat_add_no_panic; try apply repeat_mul_no_panic. apply IHn.
Qed.
Lemma stable_swap_no_panic amp source ss sd : stable_swap amp source ss sd <> Panic.
Proof.
  unfold stable_swap, compute_new_destination_amount, checked_u8_power, checked_u8_mul, try_u128.
  no_panic; try apply compute_d_no_panic; try apply repeat_add_no_panic;
    try apply repeat_mul_no_panic; apply new_dest_loop_no_panic.
Qed.
Lemma cprod_swap_no_panic source ss sd : cprod_swap source ss sd <> Panic.
Proof. unfold cprod_swap. no_panic. Qed.
Lemma cprice_swap_no_panic p source d : cprice_swap p source d <> Panic.
Proof. unfold cprice_swap. no_panic. Qed.
Lemma offset_swap_no_panic o source ss sd d : offset_swap o source ss sd d <> Panic.
Proof. unfold offset_swap. no_panic; apply cprod_swap_no_panic. Qed.

(** ** Stable curve *)
Lemma new_dest_loop_nonneg n b c d y r : 0 <= y -> 0 <= c ->
  new_dest_loop n b c d y = Val r -> 0 <= r.
Proof.
  revert y. induction n as [| n IH]; intros y Hy Hc H; cbn [new_dest_loop] in H; [inv; assumption |].
  unfold checked_u8_power, checked_u8_mul in H. cbn [Nat.sub repeat_mul repeat_add] in H. inv.
  match goal with H : (if ?x =? ?y then _ else _) = Val _ |- _ =>
    assert (0 <= x) by (apply Z.div_pos; nia);
    destruct (x =? y) end; inv; [assumption |].
  eapply IH; [| | eassumption]; assumption.
Qed.

Lemma compute_d_loop_nonneg n l a b s d r : 1 <= l -> 0 < a -> 0 < b -> 0 <= s -> 0 <= d ->
  compute_d_loop n l a b s d = Val r -> 0 <= r.
Proof.
  revert d. induction n as [| n IH]; intros d Hl Ha Hb Hs Hd H; cbn [compute_d_loop] in H;
    [inv; assumption |].
  unfold calculate_step, checked_u8_mul in H. cbn [Nat.sub repeat_add] in H. inv.
  assert (Hp : 0 <= d * d / a * d / b) by (apply Z.div_pos; [apply Z.mul_nonneg_nonneg; [apply Z.div_pos; nia | lia] | lia]).
  match goal with H : (if ?x =? ?y then _ else _) = Val _ |- _ =>
    assert (0 <= x) by (apply Z.div_pos; nia);
    destruct (x =? y) end; inv; [assumption |].
  eapply IH; [.. | eassumption]; assumption.
Qed.

Lemma compute_d_nonneg l a b r : 1 <= l -> 0 <= a -> 0 <= b -> compute_d l a b = Val r -> 0 <= r.
Proof.
  intros Hl Ha Hb H. unfold compute_d, checked_u8_mul in H. cbn [Nat.sub repeat_add] in H. inv.
  destruct (_ =? 0); inv; [lia |]. unfold try_u128 in *.
  match goal with H : (if ?c then _ else _) = Val _ |- _ => destruct c end; inv.
  eapply compute_d_loop_nonneg; [.. | eassumption]; lia.
Qed.

Lemma stable_swap_spec amp source ss sd src dst :
  0 <= amp -> 0 <= source -> 0 <= ss -> 0 <= sd ->
  stable_swap amp source ss sd = Val (src, dst) -> src = source /\ 0 <= dst <= sd.
Proof.
  intros Ha Hs Hss Hsd H. unfold stable_swap, N_COINS in H. inv. split; [reflexivity |].
  unfold compute_new_destination_amount, try_u128, checked_u8_power, checked_u8_mul in *.
  cbn [Nat.sub repeat_mul repeat_add] in *. inv.
  match goal with H : (if ?c then _ else _) = Val _ |- _ => destruct c end; inv.
  match goal with H : compute_d _ _ _ = Val ?d |- _ => apply compute_d_nonneg in H; [| nia | lia | lia] end.
  match goal with H : new_dest_loop _ _ _ _ _ = Val ?d |- _ =>
    apply new_dest_loop_nonneg in H; [lia | lia | apply Z.div_pos; nia] end.
Qed.
