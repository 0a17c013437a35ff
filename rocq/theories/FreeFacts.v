(** A linear curve on which two trades take tokens for nothing, again and again (C105). *)
From Verif Require Import Ints Tactics DfsPrecise Fees LinearCurve SwapCurve Spec DfsFacts LinearFacts
  SwapFacts LinearExact LinearProps LinearRound LinearHistory LinearBacked RoundSpec BackFacts RedeemFacts OfferFacts DriftSpec DriftFacts.

(** Slope 10^-18, starting price 0.999 * 10^-9. *)
Definition thin : linear_curve := mk_linear 1 (10 ^ 18) 999 (10 ^ 12).
Definition thin_gain : Z := 235620942.

Lemma thin_wf : linear_wf thin /\ linear_validate thin = Ok tt.
Proof. vm_compute. intuition congruence. Qed.

Lemma thin_buy B : 10 ^ 11 <= B <= u64_max ->
  exists r, curve_swap (LinearPrice thin) 6 2 B AtoB no_fees = Val r /\
    source_amount_swapped r = 6 /\ destination_amount_swapped r = 2000000000.
Proof.
  intros HB. unfold u64_max in HB. destruct thin_wf as [W V].
  destruct (buy_part thin no_fees 6 2 B (1001000000 * 10 ^ 18) (3001000000 * 10 ^ 18) W V) as (r & Hr & S & D).
  - split; reflexivity.
  - split; vm_compute; discriminate.
  - split; vm_compute; discriminate.
  - unfold is_u64, u64_max; lia.
  - lia.
  - vm_compute. reflexivity.
  - vm_compute. reflexivity.
  - unfold cost_den, cost2, thin. cbn [slope_num slope_den price_num price_den]. unfold ONE. nia.
  - vm_compute. discriminate.
  - exists r. split; [exact Hr |]. split; [exact S |]. rewrite D. vm_compute. reflexivity.
Qed.

Lemma thin_sell B : 0 <= B <= u64_max ->
  exists r, curve_swap (LinearPrice thin) 1764379058 B 8 BtoA no_fees = Val r /\
    source_amount_swapped r = 1764379058 /\ destination_amount_swapped r = 6.
Proof.
  intros HB. unfold u64_max in HB.
  exists (mk_swap_result (B + 1764379058) (8 - 6) 1764379058 6 0 0). split; [| split; reflexivity].
  apply feeless_swap; [split; reflexivity | split; vm_compute; discriminate |].
  cbn [source_amount_swapped destination_amount_swapped new_swap_source_amount new_swap_destination_amount trade_fee owner_fee].
  split; [| unfold u128_max; lia].
  change (swap_without_fees (LinearPrice thin) 1764379058 0 8 BtoA = Val (1764379058, 6)). vm_compute. reflexivity.
Qed.

Definition free_cycle : list lop := [Buy 6; Sell 1764379058].

Lemma cycle_once B x : 10 ^ 11 <= B <= u64_max ->
  lrun thin no_fees (mk_lpool 2 B x) free_cycle = mk_lpool 2 (B - thin_gain) (x + thin_gain).
Proof.
  intros HB. unfold lrun, free_cycle. cbn [fold_left].
  destruct (thin_buy B HB) as (r & Hr & S & D).
  pose proof Hr as Hr'. apply feeless_swap in Hr'; [| split; reflexivity | split; vm_compute; discriminate].
  destruct Hr' as (_ & _ & _ & _ & N & Nd & _).
  assert (E1 : lstep thin no_fees (mk_lpool 2 B x) (Buy 6) = mk_lpool 8 (B - 2000000000) (x + 2000000000)).
  { cbn [lstep held left sold]. rewrite Hr, N, Nd, S, D. reflexivity. }
  rewrite E1. clear r Hr S D N Nd E1. unfold u64_max in HB.
  destruct (thin_sell (B - 2000000000)) as (r & Hr & S & D); [unfold u64_max; lia |].
  pose proof Hr as Hr'. apply feeless_swap in Hr'; [| split; reflexivity | split; vm_compute; discriminate].
  destruct Hr' as (_ & _ & _ & _ & N & Nd & _).
  cbn [lstep held left sold]. rewrite Hr, N, Nd, S, D.
  replace ((0 <=? 1764379058) && (1764379058 <=? u64_max) && (B - 2000000000 + 1764379058 <=? u64_max)) with true.
  2:{ symmetry. rewrite !andb_true_iff, !Z.leb_le. unfold u64_max. lia. }
  unfold thin_gain. f_equal; lia.
Qed.

Lemma cycles n : forall B x, 10 ^ 11 + thin_gain * Z.of_nat n <= B <= u64_max ->
  lrun thin no_fees (mk_lpool 2 B x) (concat (repeat free_cycle n)) =
  mk_lpool 2 (B - thin_gain * Z.of_nat n) (x + thin_gain * Z.of_nat n).
Proof.
  induction n as [| n IH]; intros B x HB.
  { cbn [repeat concat lrun fold_left]. f_equal; lia. }
  rewrite Nat2Z.inj_succ in *. unfold thin_gain in *. cbn [repeat concat]. rewrite lrun_app, cycle_once by lia.
  unfold thin_gain. rewrite IH by lia. f_equal; lia.
Qed.

(** However many tokens: two units of collateral are all that is ever left behind. *)
Lemma free_tokens : exists c, linear_wf c /\ linear_validate c = Ok tt /\
  forall K, K <= 10 ^ 19 -> exists ops,
    let st := lrun c no_fees (mk_lpool 0 u64_max 0) ops in
    held st = 2 /\ K <= sold st /\
    (forall s, In (Buy s) ops -> s <= 6) /\ (forall x, ~ In (GiveA x) ops /\ ~ In (GiveB x) ops /\ ~ In (TopUp x) ops).
Proof.
  exists thin. split; [apply thin_wf |]. split; [apply thin_wf |]. intros K HK.
  set (n := Z.to_nat (Z.max 0 K / thin_gain)).
  exists (Buy 2 :: concat (repeat free_cycle n)). cbv zeta.
  assert (Hn : thin_gain * Z.of_nat n <= Z.max 0 K < thin_gain * Z.of_nat n + thin_gain).
  { unfold n. rewrite Z2Nat.id by (apply Z.div_pos; unfold thin_gain; lia).
    pose proof (div_bounds (Z.max 0 K) thin_gain ltac:(reflexivity)). lia. }
  assert (E : lstep thin no_fees (mk_lpool 0 u64_max 0) (Buy 2) = mk_lpool 2 (u64_max - 1001000000) 1001000000)
    by (vm_compute; reflexivity).
  change (lrun thin no_fees (mk_lpool 0 u64_max 0) (Buy 2 :: concat (repeat free_cycle n)))
    with (lrun thin no_fees (lstep thin no_fees (mk_lpool 0 u64_max 0) (Buy 2)) (concat (repeat free_cycle n))).
  rewrite E. clear E. clearbody n. unfold thin_gain in Hn. change (10 ^ 19) with 10000000000000000000 in HK.
  rewrite cycles by (unfold thin_gain, u64_max; lia).
  cbn [held sold]. unfold thin_gain. split; [reflexivity |]. split; [lia |].
  assert (A : forall o, In o (concat (repeat free_cycle n)) -> o = Buy 6 \/ o = Sell 1764379058).
  { intros o Ho. apply in_concat in Ho. destruct Ho as (l & Hl & Ho). apply repeat_spec in Hl. subst l.
    destruct Ho as [<- | [<- | []]]; auto. }
  split.
  - intros s [Hs | Hs]; [injection Hs as <-; lia |]. apply A in Hs. destruct Hs as [Hs | Hs]; [injection Hs as ->; lia | discriminate].
  - intros x. repeat split; intros [Hs | Hs]; try discriminate; apply A in Hs; destruct Hs; discriminate.
Qed.
