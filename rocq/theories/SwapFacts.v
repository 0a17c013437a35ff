(** Bounds of the swap calculation of every curve (property C01). *)
From Verif Require Import Ints Tactics DfsPrecise Fees LinearCurve ConstantPrice ConstantProduct
  OffsetCurve StableCurve SwapCurve Spec DfsFacts CurveFacts LinearFacts.

(** A linear calculation that yields a value used non-zero denominators. *)
Lemma dfs_div_nonzero x y z : dfs_div x y = Val z -> y <> 0.
Proof. intros H ->. unfold dfs_div in H. discriminate. Qed.

Lemma dfs_new_nonzero x y : dfs_new x = Val y -> y <> 0 -> x <> 0.
Proof. unfold dfs_new. intros H Hy ->. inv. lia. Qed.

Lemma b_value_pos c a up b : linear_wf c -> b_value_with_amt_a_locked c a up = Val b -> linear_pos c.
Proof.
  intros Hwf H. split; [exact Hwf |]. destruct Hwf as (H1 & H2 & H3 & H4). unfold is_u64, u64_max in *.
  unfold b_value_with_amt_a_locked in H.
  rewrite !dfs_new_val in H by (unfold ONE, u256_max; lia). cbn [obind] in H.
  rewrite !dfs_mul_whole in H by (unfold ONE, HALF, u256_max; lia). cbn [obind] in H.
  unfold solve_quadratic_positive_root in H. inv.
  repeat match goal with H : dfs_div _ ?y = Val _ |- _ => apply dfs_div_nonzero in H end.
  unfold ONE in *. lia.
Qed.

Lemma swap_a_to_b_pos c s a dest r : linear_wf c -> swap_a_to_b c s a dest = Val r -> linear_pos c.
Proof. intros Hc H. unfold swap_a_to_b in H. inv. eapply b_value_pos; eassumption. Qed.

Lemma swap_b_to_a_pos c s a dest r : linear_wf c -> swap_b_to_a c s a dest = Val r -> linear_pos c.
Proof. intros Hc H. unfold swap_b_to_a in H. inv. eapply b_value_pos; eassumption. Qed.

Lemma linear_swap_bounds c source ss sd d src dst :
  linear_wf c -> is_u64 source -> is_u64 ss -> is_u64 sd ->
  linear_swap c source ss sd d = Val (src, dst) ->
  0 < src <= source /\ 0 < dst /\ (d = BtoA -> dst <= sd).
Proof.
  intros Hc Hs Hss Hsd H. unfold linear_swap in H. destruct d; inv.
  - match goal with H : swap_a_to_b _ _ _ _ = _ |- _ => rename H into Hsw end.
    assert (Hp := swap_a_to_b_pos _ _ _ _ _ Hc Hsw).
    apply swap_a_to_b_val in Hsw; try assumption. unfold is_u64 in *.
    destruct Hsw as (b0 & Hb0 & [(-> & Hsrc & _) | (-> & _ & b1 & _ & Hle & -> & _)]).
    + split; [lia |]. split; [lia | discriminate].
    + split; [lia |]. split; [| discriminate].
      assert (0 <= (b1 - b0) / ONE) by (apply Z.div_pos; [lia | exact ONE_pos]). lia.
  - match goal with H : swap_b_to_a _ _ _ _ = _ |- _ => rename H into Hsw end.
    assert (Hp := swap_b_to_a_pos _ _ _ _ _ Hc Hsw).
    apply swap_b_to_a_val in Hsw; try assumption. unfold is_u64 in *.
    destruct Hsw as (b0 & Hb0 & [(Hlt & Hr & ->) | (Hle & -> & Ha & Hb & _ & ->)]).
    + apply b_value_val in Hb0; [| assumption | unfold u64_max in *; lia].
      destruct Hb0 as (r & _ & _ & _ & Hb). unfold ONE in *. lia.
    + split; [lia |].
      pose proof (area_nonneg c (end_position b0 source * ONE) Hp ltac:(lia)) as Hn.
      assert ((sd * ONE - area c (end_position b0 source * ONE)) / ONE <= sd).
      { apply Z.div_le_upper_bound; [exact ONE_pos | unfold ONE in *; lia]. }
      assert (0 <= (sd * ONE - area c (end_position b0 source * ONE)) / ONE)
        by (apply Z.div_pos; [lia | exact ONE_pos]).
      lia.
Qed.

Lemma cprice_swap_bounds p source d src dst : is_u64 p -> is_u64 source ->
  cprice_swap p source d = Val (src, dst) -> 0 < src <= source /\ 0 < dst.
Proof.
  intros Hp Hs H. unfold is_u64 in *. destruct d.
  - assert (0 < p).
    { unfold cprice_swap in H. inv. lia. }
    apply cprice_swap_a_to_b in H; try lia.
    destruct H as (-> & -> & Hpos). pose proof (div_bounds source p). nia.
  - apply cprice_swap_b_to_a in H; [| lia | lia]. destruct H as (-> & -> & Hpos). nia.
Qed.

(** The curves that report a zero result as a failure. *)
Definition rejects_zero_payout (c : curve) : Prop := match c with Stable _ => False | _ => True end.

Lemma swap_without_fees_bounds c source ss sd d src dst :
  curve_wf c -> is_u64 source -> is_u64 ss -> is_u64 sd ->
  swap_without_fees c source ss sd d = Val (src, dst) ->
  0 <= src <= source /\ 0 <= dst /\ (rejects_zero_payout c -> 0 < dst).
Proof.
  intros Hc Hs Hss Hsd H. assert (Hs' := Hs). assert (Hss' := Hss). assert (Hsd' := Hsd).
  unfold is_u64 in Hs', Hss', Hsd'.
  destruct c; cbn [swap_without_fees curve_wf rejects_zero_payout] in *.
  - apply cprod_swap_spec in H; lia.
  - apply cprice_swap_bounds in H; try assumption. lia.
  - unfold is_u64 in Hc. apply stable_swap_spec in H; lia.
  - unfold is_u64 in Hc. apply offset_swap_spec in H; try lia.
  - apply linear_swap_bounds in H; try assumption. lia.
Qed.

Lemma curve_swap_bounds c source ss sd d f r :
  curve_wf c -> fees_wf f -> is_u64 source -> is_u64 ss -> is_u64 sd ->
  curve_swap c source ss sd d f = Val r ->
  trade_fee r + owner_fee r <= source_amount_swapped r <= source /\
  0 <= trade_fee r /\ 0 <= owner_fee r /\
  0 <= destination_amount_swapped r <= sd /\
  new_swap_source_amount r = ss + source_amount_swapped r /\
  new_swap_destination_amount r = sd - destination_amount_swapped r /\
  (rejects_zero_payout c -> 0 < destination_amount_swapped r).
Proof.
  intros Hc Hf Hs Hss Hsd H. unfold curve_swap in H. inv.
  destruct Hf as (F1 & F2 & F3 & F4 & _). unfold is_u64 in *.
  unfold trading_fee, owner_trading_fee in *.
  repeat match goal with H : calculate_fee _ _ _ = Val _ |- _ =>
    apply calculate_fee_nonneg in H; [| lia | lia | lia] end.
  match goal with H : swap_without_fees _ _ _ _ _ = Val _ |- _ =>
    apply swap_without_fees_bounds in H; unfold is_u64; try assumption; try lia end.
  inv. cbn. repeat split; try tauto; lia.
Qed.
