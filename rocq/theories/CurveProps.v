(** Witnesses and corollaries used by the curve properties. *)
From Verif Require Import Ints Tactics Fees LinearCurve ConstantPrice ConstantProduct OffsetCurve
  StableCurve SwapCurve Spec CurveFacts LinearFacts SwapFacts.

Lemma deposit_both_unfair : exists p n supply a b x y,
  is_u64 p /\ is_u64 n /\ is_u64 supply /\ is_u64 a /\ is_u64 b /\ 0 < p /\ 0 < supply /\
  cprice_pool_tokens_to_trading_tokens p n supply a b Ceiling = Val (x, y) /\ 0 < x /\ 0 < y /\
  pool_value p x y * supply < n * pool_value p a b.
Proof.
  exists 1, 1000000000, 1000000000, 2, 1, 1, 1. vm_compute. repeat split; congruence.
Qed.

Lemma single_withdrawal_unfair : exists p source a b supply d f t,
  is_u64 p /\ fees_wf f /\ fees_validate f = Ok tt /\
  curve_withdraw_single (ConstantPrice p) source a b supply d f = Val t /\ 0 < t /\
  t * pool_value p a b < supply * value_of p source d.
Proof.
  exists 1, 100, 1000, 0, 1000, AtoB, (mk_fees 25 100 0 0 0 0 0 0), 88.
  vm_compute. repeat split; congruence.
Qed.

Lemma swap_unfair : exists p source ss sd d f r supply t,
  is_u64 p /\ 0 < p /\ fees_wf f /\ fees_validate f = Ok tt /\
  curve_swap (ConstantPrice p) source ss sd d f = Val r /\
  curve_withdraw_single (ConstantPrice p) (owner_fee r)
    (side_a d (new_swap_source_amount r) (new_swap_destination_amount r))
    (side_b d (new_swap_source_amount r) (new_swap_destination_amount r)) supply d f = Val t /\
  pool_value p (side_a d (new_swap_source_amount r) (new_swap_destination_amount r))
               (side_b d (new_swap_source_amount r) (new_swap_destination_amount r)) * supply <
  pool_value p (side_a d ss sd) (side_b d ss sd) * (supply + t).
Proof.
  exists 1, 400, 500, 500, AtoB, (mk_fees 0 0 15 100 0 0 0 0), (mk_swap_result 900 160 400 340 0 60), 10, 1.
  vm_compute. repeat split; congruence.
Qed.

Lemma empty_reserve_gives_all : exists source sd src dst,
  0 < sd /\ cprod_swap source 0 sd = Val (src, dst) /\ src = 0 /\ dst = sd.
Proof. exists 5, 7, 0, 7. vm_compute. repeat split. Qed.

Lemma offset_pays_held o source ss sd d f r :
  is_u64 o -> fees_wf f -> is_u64 source -> is_u64 ss -> is_u64 sd ->
  curve_swap (Offset o) source ss sd d f = Val r ->
  0 < destination_amount_swapped r <= sd /\
  new_swap_destination_amount r = sd - destination_amount_swapped r.
Proof.
  intros Ho Hf Hs Hss Hsd H. apply curve_swap_bounds in H; try assumption.
  cbn [rejects_zero_payout] in H. intuition lia.
Qed.
