(** The Python simulation of the stable curve. *)
From Verif Require Import Ints Tactics SplMath StableCurve SwapCurve QuoteSpec QuoteFacts StableFacts
  RandomTests Simulation TestSpec.

Local Opaque d_step.

Lemma sim_xp_eq x : sim_xp x = x.
Proof. unfold sim_xp, DEFAULT_TARGET_PRICE. change (10 ^ 18) with 1000000000000000000. apply Z.div_mul. discriminate. Qed.

Lemma sim_step l a b d : 2 <= l -> 0 <= a -> 0 <= b -> 0 < a + b -> 1 <= d <= 2 * (a + b) ->
  sim_d_step l a b d = Some (d_step l a b d).
Proof.
  intros Hl Ha Hb Hs Hd. destruct (d_step_bounds l a b d Hl Ha Hb Hs Hd) as (_ & _ & Hden).
  unfold sim_d_step, pydiv.
  destruct (Z.eqb_spec (2 * a + 1) 0); [lia |]. destruct (Z.eqb_spec (2 * b + 1) 0); [lia |].
  change (d * d / (2 * a + 1) * d / (2 * b + 1)) with (d_product a b d). change (2 + 1) with 3.
  destruct (Z.eqb_spec ((l - 1) * d + 3 * d_product a b d) 0); [lia |].
  rewrite (Z.mul_comm (d_product a b d) 2). Local Transparent d_step. reflexivity.
Qed.
Local Opaque d_step.

Lemma sim_d_loop_from l a b : 2 <= l -> 0 <= a -> 0 <= b -> 0 < a + b ->
  let seq i := Nat.iter i (d_step l a b) (a + b) in
  forall n j, (forall i, (i < j)%nat -> 1 < gap seq i) ->
  exists k, sim_d_loop n l a b (seq j) (match j with O => 0 | S i => seq i end) = Some (seq k) /\
    (j <= k)%nat /\ (k = (j + n)%nat \/ (k < j + n)%nat /\ gap seq k <= 1) /\
    forall i, (i < k)%nat -> 1 < gap seq i.
Proof.
  intros Hl Ha Hb Hs seq. induction n as [| n IH]; intros j Hj.
  - exists j. cbn [sim_d_loop]. rewrite Nat.add_0_r. auto.
  - cbn [sim_d_loop]. change (Z.abs (seq j - match j with O => 0 | S i => seq i end)) with (gap seq j).
    destruct (Z.ltb_spec 1 (gap seq j)) as [G | G].
    + rewrite sim_step; [| assumption .. | apply iter_d_bounds; assumption].
      change (d_step l a b (seq j)) with (seq (S j)).
      destruct (IH (S j)) as (k & E & K1 & K2 & K3).
      { intros i Hi. destruct (Nat.eq_dec i j) as [-> | N]; [exact G | apply Hj; lia]. }
      exists k. split; [exact E |]. split; [lia |]. split; [| exact K3].
      replace (j + S n)%nat with (S j + n)%nat by lia. exact K2.
    + exists j. split; [reflexivity |]. split; [lia |]. split; [right; split; [lia | exact G] | exact Hj].
Qed.

Lemma sim_d_sequence amp a b : 1 <= amp -> 2 * amp <= u64_max -> is_u64 a -> is_u64 b -> 0 < a + b ->
  let seq i := Nat.iter i (d_step (2 * amp) a b) (a + b) in
  exists k, sim_d amp a b = Some (seq k) /\ stops_at seq k /\
    compute_d (2 * amp) a b = Val (seq 32%nat).
Proof.
  intros H1 H2 Ha Hb Hs seq. unfold is_u64 in *.
  destruct (sim_d_loop_from (2 * amp) a b ltac:(lia) ltac:(lia) ltac:(lia) Hs ROUNDS 0%nat) as (k & E & _ & K2 & K3).
  { intros i Hi. lia. }
  exists k. split.
  - unfold sim_d. cbv zeta. rewrite !sim_xp_eq, (Z.mul_comm amp 2). exact E.
  - split; [| apply compute_d_exact; consts; lia].
    split; [exact K2 | exact K3].
Qed.

(** The trade of the simulation. *)
Lemma sim_y_loop_from b c y0 : let seq i := Nat.iter i (fun y => (y * y + c) / (2 * y + b)) y0 in
  forall n j, (forall i, (i < j)%nat -> 1 < gap seq i) ->
  exists k, (j <= k)%nat /\ (forall i, (i < k)%nat -> 1 < gap seq i) /\
    (sim_y_loop n b c (seq j) (match j with O => 0 | S i => seq i end) = Some (seq k) /\
       (k = (j + n)%nat \/ (k < j + n)%nat /\ gap seq k <= 1) \/
     sim_y_loop n b c (seq j) (match j with O => 0 | S i => seq i end) = None /\
       (k < j + n)%nat /\ 1 < gap seq k /\ 2 * seq k + b = 0).
Proof.
  intros seq. induction n as [| n IH]; intros j Hj.
  - exists j. cbn [sim_y_loop]. rewrite Nat.add_0_r. auto 6.
  - cbn [sim_y_loop]. change (Z.abs (seq j - match j with O => 0 | S i => seq i end)) with (gap seq j).
    destruct (Z.ltb_spec 1 (gap seq j)) as [G | G].
    + unfold pydiv. destruct (Z.eqb_spec (2 * seq j + b) 0) as [E | N].
      { exists j. split; [lia |]. split; [exact Hj |]. right. repeat split; [lia | exact G | exact E]. }
      change ((seq j * seq j + c) / (2 * seq j + b)) with (seq (S j)).
      destruct (IH (S j)) as (k & K1 & K2 & K3).
      { intros i Hi. destruct (Nat.eq_dec i j) as [-> | N']; [exact G | apply Hj; lia]. }
      exists k. split; [lia |]. split; [exact K2 |].
      replace (j + S n)%nat with (S j + n)%nat by lia. exact K3.
    + exists j. split; [lia |]. split; [exact Hj |]. left. split; [reflexivity |]. right. split; [lia | exact G].
Qed.

Lemma sim_trade_sequence amp a b dx d : 1 <= amp -> 0 < a + dx -> sim_d amp a b = Some d ->
  let seq i := Nat.iter i (sim_reserve_step amp (a + dx) d) d in
  exists k, sim_exchange amp a b dx = Some (b - seq k) /\ stops_at seq k \/
    sim_exchange amp a b dx = None /\ (forall i, (i <= k)%nat -> 1 < gap seq i) /\
    2 * seq k + (a + dx) + d / (2 * amp) - d = 0.
Proof.
  intros Ha Hx Hd seq. unfold sim_exchange. cbv zeta. rewrite !sim_xp_eq. unfold sim_y. rewrite Hd. cbv zeta.
  unfold pydiv. destruct (Z.eqb_spec ((a + dx) * 2) 0); [lia |]. destruct (Z.eqb_spec (2 * (amp * 2)) 0); [lia |].
  destruct (Z.eqb_spec (amp * 2) 0); [lia |].
  destruct (sim_y_loop_from (a + dx + d / (amp * 2) - d) (d * d / ((a + dx) * 2) * d / (2 * (amp * 2))) d ROUNDS 0%nat)
    as (k & _ & K2 & K3); [intros i Hi; lia |].
  assert (Ec : (a + dx) * 2 = 2 * (a + dx) /\ 2 * (amp * 2) = 4 * amp /\ amp * 2 = 2 * amp) by lia.
  destruct Ec as (E1 & E2 & E3). rewrite E1, E2, E3 in *.
  set (c := d * d / (2 * (a + dx)) * d / (4 * amp)) in *.
  assert (E : forall i, Nat.iter i (fun y => (y * y + c) / (2 * y + (a + dx + d / (2 * amp) - d))) d = seq i).
  { assert (F : forall y, (y * y + c) / (2 * y + (a + dx + d / (2 * amp) - d)) = sim_reserve_step amp (a + dx) d y).
    { intros y. unfold sim_reserve_step. fold c. f_equal. lia. }
    intros i. unfold seq. induction i as [| i IH]; [reflexivity |].
    change (Nat.iter (S i) (fun y => (y * y + c) / (2 * y + (a + dx + d / (2 * amp) - d))) d)
      with ((fun y => (y * y + c) / (2 * y + (a + dx + d / (2 * amp) - d))) (Nat.iter i (fun y => (y * y + c) / (2 * y + (a + dx + d / (2 * amp) - d))) d)).
    rewrite IH. cbv beta. rewrite F. reflexivity. }
  set (seq' := fun i => Nat.iter i (fun y => (y * y + c) / (2 * y + (a + dx + d / (2 * amp) - d))) d) in *.
  change (forall i, seq' i = seq i) in E.
  assert (G : forall i, gap seq' i = gap seq i) by (intros i; unfold gap; rewrite E; destruct i; [reflexivity | rewrite E; reflexivity]).
  exists k. set (B := a + dx + d / (2 * amp) - d) in *.
  assert (K : sim_y_loop ROUNDS B c d 0 = Some (seq' k) /\ (k = 1001%nat \/ (k < 1001)%nat /\ gap seq' k <= 1) \/
      sim_y_loop ROUNDS B c d 0 = None /\ (k < 1001)%nat /\ 1 < gap seq' k /\ 2 * seq' k + B = 0) by exact K3.
  clear K3. destruct K as [[-> K3] | (-> & _ & K3 & K4)].
  - left. rewrite E. split; [reflexivity |]. split; [rewrite <- G; exact K3 |]. intros i Hi. rewrite <- G. exact (K2 i Hi).
  - right. split; [reflexivity |]. rewrite <- E. split; [| lia]. intros i Hi. rewrite <- G.
    destruct (Nat.eq_dec i k) as [-> | N]; [exact K3 | apply K2; lia].
Qed.
